(** C143: what the object says about firmware, over histories. *)
From Coq Require Import QArith.
From Verif Require Import Base Py Base_Lemmas Gadget_Model Upgrade_Model Upgrade_Spec.
Open Scope string_scope.
Open Scope list_scope.
Open Scope Z_scope.

Section Firmware.
Variable iso : string -> option Z.
Variable odd_int : json -> option Z.
Notation run := (run iso odd_int).
Notation reads := (from_dict iso odd_int).

(** What the counting check amounts to *)
Definition found (r : option (res json)) : option info :=
  match r with Some (Ok v) => reads v | _ => None end.

Lemma run_info h : forall o v r, o_info o = found r ->
  o_info (fst (run (o, v) h)) = found (last_check h r).
Proof.
  induction h as [|e h IH]; intros o v r E; [exact E|].
  unfold run. cbn [fold_left]. change (fold_left (step iso odd_int) h ?s) with (run s h).
  destruct e as [q|ack ps after| |x|b]; cbn [step last_check].
  - destruct q as [j|x].
    + cbn [check_latest fst]. apply IH. reflexivity.
    + destruct x; cbn [check_latest is_exception fst]; first [apply IH; reflexivity | apply IH; exact E].
  - apply IH. exact E.
  - apply IH. exact E.
  - apply IH. exact E.
  - apply IH. exact E.
Qed.
Lemma run_cloud h : forall o v,
  o_cloud (fst (run (o, v) h)) = last_cloud h (v_cloud v) (o_cloud o).
Proof.
  induction h as [|e h IH]; intros o v; [reflexivity|].
  unfold run. cbn [fold_left]. change (fold_left (step iso odd_int) h ?s) with (run s h).
  destruct e as [q|ack ps after| |x|b]; cbn [step last_cloud].
  - destruct q as [j|x]; [cbn [check_latest fst]; rewrite IH; reflexivity|].
    destruct x; cbn [check_latest is_exception fst]; rewrite IH; reflexivity.
  - rewrite IH. reflexivity.
  - rewrite IH. reflexivity.
  - rewrite IH. reflexivity.
  - rewrite IH. reflexivity.
Qed.

(** The newest version and whether there is one are what the last check that was not cancelled found,
    as far as the cloud connection is known: a failed check, or an unreadable reply, forgets what
    earlier ones found. *)
Lemma status_follows_ v h :
  let o := fst (run (fresh v) h) in
  let i := found (last_check h None) in
  latest_firmware o = match i with Some i => i_version i | None => JNull end /\
  update_available o =
    if last_cloud h (v_cloud v) (v_cloud v) then option_map (fun i => negb (i_status i =? 0)) i else None.
Proof.
  cbv zeta. unfold fresh. unfold latest_firmware, update_available.
  rewrite (run_info h (mkObj None (v_cloud v) (v_running v)) v None eq_refl), run_cloud. cbn [o_cloud].
  split; [reflexivity|]. destruct (last_cloud h (v_cloud v) (v_cloud v)); cbn [negb]; [|reflexivity].
  destruct (found (last_check h None)); reflexivity.
Qed.

(** A download is started exactly when the last check found something newer and the device was seen
    connected: then one command, otherwise none. *)
Lemma download_only_found_ v h ack ps after :
  let s := run (fresh v) h in
  let s' := run (fresh v) (h ++ [Install ack ps after]) in
  v_log (snd s') =
    if last_cloud h (v_cloud v) (v_cloud v) &&
       match found (last_check h None) with Some i => negb (i_status i =? 0) | None => false end
    then v_log (snd s) ++ [mkCmd "fw_download" []] else v_log (snd s).
Proof.
  cbv zeta. unfold run. rewrite fold_left_app. cbn [fold_left].
  change (fold_left (step iso odd_int) h (fresh v)) with (run (fresh v) h).
  pose proof (run_info h (mkObj None (v_cloud v) (v_running v)) v None eq_refl) as I.
  pose proof (run_cloud h (mkObj None (v_cloud v) (v_running v)) v) as C.
  change (mkObj None (v_cloud v) (v_running v), v) with (fresh v) in I, C. cbn [o_cloud] in C.
  destruct (run (fresh v) h) as [o w]. cbn [fst] in I, C. cbn [step snd v_log]. unfold status. rewrite I, C.
  destruct (found (last_check h None)) as [i|]; cbn [option_map firmware_update].
  - destruct (last_cloud h (v_cloud v) (v_cloud v)); cbn [andb negb].
    + destruct (i_status i =? 0); cbn [negb]; [reflexivity|].
      unfold mbind, send. cbn [fst]. destruct ack; reflexivity.
    + reflexivity.
  - rewrite andb_false_r. reflexivity.
Qed.

Lemma reads_truthful running newest r : truthful iso running newest r ->
  exists i, reads r = Some i /\ i_version i = JStr newest /\ (i_status i = 0 <-> running = newest).
Proof.
  intros (d & t & -> & Et & Ht & (n & En) & Ev & Hd & Hs). cbn [from_dict]. rewrite Et, En.
  assert (D : exists x, read_date iso d = Some x).
  { unfold read_date. destruct (dget "release_date" d) as [x|]; [|exists None; reflexivity].
    destruct (Hd x eq_refl) as (s & -> & [-> | (k & Ek)]); [exists None; reflexivity|].
    cbn [truthy]. destruct (negb (String.eqb s "")); [|exists None; reflexivity].
    exists (Some k). rewrite Ek. reflexivity. }
  assert (S : exists x, read_size odd_int d = Some x).
  { unfold read_size. destruct (dget "fw_size" d) as [x|]; [|exists None; reflexivity].
    destruct (Hs x eq_refl) as (k & ->). exists (Some k). reflexivity. }
  destruct D as (dt & ->). destruct S as (sz & ->). cbn [to_int].
  eexists. split; [reflexivity|]. cbn [i_version i_status]. unfold plain. rewrite Ev. split; [reflexivity|exact Ht].
Qed.
Lemma quiet_run h : Forall quiet h -> forall o v,
  o_info (fst (run (o, v) h)) = o_info o /\ v_running (snd (run (o, v) h)) = v_running v /\
  v_newest (snd (run (o, v) h)) = v_newest v.
Proof.
  induction 1 as [|e h Q _ IH]; intros o v; [repeat split|].
  unfold run. cbn [fold_left]. change (fold_left (step iso odd_int) h ?s) with (run s h).
  destruct e as [q|ack ps after| |x|b]; cbn [quiet] in Q; try contradiction; cbn [step].
  - rewrite Q. cbn [check_latest is_exception fst]. apply IH.
  - destruct (IH (mkObj (o_info o) (v_cloud v) (v_running v)) v) as (A & B & C). repeat split; assumption.
  - destruct (IH o (mkDev (v_running v) (v_newest v) b (v_log v))) as (A & B & C). repeat split; assumption.
Qed.
(** After a check the device answers truthfully, and as long as nothing is installed, released or
    checked again, the object is right about the device: the newest version is named, and if the
    device was seen connected, an update is offered exactly if the device runs something older. *)
Lemma honest_partial_ v before after r :
  let w := snd (run (fresh v) before) in
  truthful iso (v_running w) (v_newest w) r -> Forall quiet after ->
  let s := run (fresh v) (before ++ Check (Ok r) :: after) in
  latest_firmware (fst s) = JStr (v_newest (snd s)) /\
  (o_cloud (fst s) = true ->
   update_available (fst s) = Some (negb (String.eqb (v_running (snd s)) (v_newest (snd s))))) /\
  (o_cloud (fst s) = false -> update_available (fst s) = None).
Proof.
  cbv zeta. intros T Q. destruct (reads_truthful _ _ _ T) as (i & Ei & Ev & Es).
  unfold run. rewrite fold_left_app. cbn [fold_left].
  change (fold_left (step iso odd_int) before (fresh v)) with (run (fresh v) before).
  change (fold_left (step iso odd_int) after ?s) with (run s after).
  destruct (run (fresh v) before) as [o w]. cbn [snd] in Ei, Ev, Es. cbn [step check_latest fst].
  destruct (quiet_run after Q (mkObj (reads r) (o_cloud o) (o_current o)) w) as (A & B & C).
  destruct (run (mkObj (reads r) (o_cloud o) (o_current o), w) after) as [o' w'].
  cbn [fst snd o_info] in *. unfold latest_firmware, update_available. rewrite A, Ei, B, C. split; [exact Ev|].
  split; intros ->; [|reflexivity]. cbn [negb]. f_equal. f_equal.
  destruct (String.eqb_spec (v_running w) (v_newest w)) as [E|E].
  - apply Z.eqb_eq. apply Es. exact E.
  - apply Z.eqb_neq. intros Z0. apply E. apply Es. exact Z0.
Qed.

(** An answer that tells of an update is thrown away if its release date cannot be read: the object
    then offers no update. *)
Lemma odd_date_ running s : s <> "" -> iso s = None ->
  update_available (fst (run (fresh (mkDev running "1.2.0" true []))
    [Check (Ok (JObj [("type", JInt 2); ("need_to_upgrade", JBool true); ("fw_ver", JStr "1.2.0"); ("release_date", JStr s)]))])) = None.
Proof.
  intros N I. unfold run. cbn [fold_left step check_latest fst fresh]. unfold update_available. cbn [o_cloud o_info negb v_cloud].
  cbn [from_dict]. unfold read_date.
  change (dget "release_date" [("type", JInt 2); ("need_to_upgrade", JBool true); ("fw_ver", JStr "1.2.0"); ("release_date", JStr s)])
    with (Some (JStr s)).
  cbn [truthy]. rewrite (proj2 (String.eqb_neq s "") N), I. reflexivity.
Qed.
End Firmware.

Theorem status_follows : forall iso odd_int v h,
  let o := fst (run iso odd_int (fresh v) h) in
  let i := match last_check h None with Some (Ok r) => from_dict iso odd_int r | _ => None end in
  latest_firmware o = match i with Some i => i_version i | None => JNull end /\
  update_available o =
    if last_cloud h (v_cloud v) (v_cloud v) then option_map (fun i => negb (i_status i =? 0)) i else None.
Proof. exact status_follows_. Qed.
Print Assumptions status_follows.

Theorem download_only_found : forall iso odd_int v h ack ps after,
  let s := run iso odd_int (fresh v) h in
  let s' := run iso odd_int (fresh v) (h ++ [Install ack ps after]) in
  let i := match last_check h None with Some (Ok r) => from_dict iso odd_int r | _ => None end in
  v_log (snd s') =
    if last_cloud h (v_cloud v) (v_cloud v) &&
       match i with Some i => negb (i_status i =? 0) | None => false end
    then v_log (snd s) ++ [mkCmd "fw_download" []] else v_log (snd s).
Proof. exact download_only_found_. Qed.
Print Assumptions download_only_found.

Theorem firmware_honest_partial : forall iso odd_int v before after r,
  let w := snd (run iso odd_int (fresh v) before) in
  truthful iso (v_running w) (v_newest w) r -> Forall quiet after ->
  let s := run iso odd_int (fresh v) (before ++ Check (Ok r) :: after) in
  latest_firmware (fst s) = JStr (v_newest (snd s)) /\
  (o_cloud (fst s) = true ->
   update_available (fst s) = Some (negb (String.eqb (v_running (snd s)) (v_newest (snd s))))) /\
  (o_cloud (fst s) = false -> update_available (fst s) = None).
Proof. exact honest_partial_. Qed.
Print Assumptions firmware_honest_partial.

(** The reply of a device that runs 1.1.0 when 1.2.0 is out *)
Definition reply12 : json := JObj [("type", JInt 2); ("need_to_upgrade", JBool true); ("fw_ver", JStr "1.2.0");
  ("release_date", JStr "2024-06-01"); ("release_note", JStr "Fixes"); ("fw_size", JInt 786432); ("oem_id", JStr "A1")].
Definition day (s : string) : option Z := if String.eqb s "2024-06-01" then Some 738673 else None.
Lemma reply12_truthful : truthful day "1.1.0" "1.2.0" reply12.
Proof.
  exists [("type", JInt 2); ("need_to_upgrade", JBool true); ("fw_ver", JStr "1.2.0");
    ("release_date", JStr "2024-06-01"); ("release_note", JStr "Fixes"); ("fw_size", JInt 786432); ("oem_id", JStr "A1")], 2.
  split; [reflexivity|]. split; [reflexivity|]. split; [split; intros E; discriminate E|].
  split; [exists (JBool true); reflexivity|]. split; [reflexivity|]. split.
  - intros x E. injection E as <-. exists "2024-06-01". split; [reflexivity|]. right. exists 738673. reflexivity.
  - intros x E. injection E as <-. exists 786432. reflexivity.
Qed.
Definition plug : dev := mkDev "1.1.0" "1.1.0" true [].
Example firmware_honest_ex :
  let s := run day (fun _ => None) (fresh plug) [Release "1.2.0"; Check (Ok reply12); Link false; Link true; Refresh] in
  truthful day "1.1.0" "1.2.0" reply12 /\
  Forall quiet [Link false; Link true; Refresh] /\
  latest_firmware (fst s) = JStr "1.2.0" /\ update_available (fst s) = Some true.
Proof. split; [exact reply12_truthful|]. split; [repeat constructor|]. split; reflexivity. Qed.
Example status_follows_ex :
  latest_firmware (fst (run day (fun _ => None) (fresh plug) [Check (Ok reply12); Check (Err KTimeout); Refresh])) = JNull /\
  latest_firmware (fst (run day (fun _ => None) (fresh plug) [Check (Ok reply12); Check (Err Cancelled)])) = JStr "1.2.0".
Proof. split; reflexivity. Qed.

(** Not so after an installation: the device runs the newest firmware, the object has been updated and
    knows it, yet it still offers the update, and asked to update it tells the device to download
    again. *)
Theorem firmware_installed_refuted : forall iso odd_int r, truthful iso "1.1.0" "1.2.0" r ->
  let v := mkDev "1.1.0" "1.2.0" true [] in
  let h := [Check (Ok r); Install (Ok JNull) [mkPoll 20 (Some (mkD 0 100 5))] "1.2.0"; Refresh] in
  let s := run iso odd_int (fresh v) h in
  v_running (snd s) = "1.2.0" /\ v_newest (snd s) = "1.2.0" /\ o_current (fst s) = "1.2.0" /\
  update_available (fst s) = Some true /\
  v_log (snd (run iso odd_int (fresh v) (h ++ [Install (Ok JNull) [] "1.2.0"]))) =
    [mkCmd "fw_download" []; mkCmd "fw_download" []].
Proof.
  intros iso odd_int r T. destruct (reads_truthful iso odd_int _ _ _ T) as (i & Ei & Ev & Es).
  assert (N : (i_status i =? 0) = false) by (apply Z.eqb_neq; intros E; apply Es in E; discriminate E).
  cbv zeta. unfold run, fresh. cbn [List.app fold_left step check_latest fst v_cloud v_running o_cloud o_current v_log].
  rewrite Ei. unfold status. cbn [o_info option_map firmware_update]. rewrite N. cbn.
  unfold update_available. cbn. rewrite ?N. repeat split; reflexivity.
Qed.
Print Assumptions firmware_installed_refuted.
Example firmware_installed_ex : truthful day "1.1.0" "1.2.0" reply12.
Proof. exact reply12_truthful. Qed.

Theorem firmware_odd_date_refuted : forall iso odd_int running s, s <> "" -> iso s = None ->
  update_available (fst (run iso odd_int (fresh (mkDev running "1.2.0" true []))
    [Check (Ok (JObj [("type", JInt 2); ("need_to_upgrade", JBool true); ("fw_ver", JStr "1.2.0"); ("release_date", JStr s)]))])) = None.
Proof. exact odd_date_. Qed.
Print Assumptions firmware_odd_date_refuted.
Example firmware_odd_date_ex : day "01/06/2024" = None.
Proof. reflexivity. Qed.
