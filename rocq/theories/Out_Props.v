(** C137: what the command line tool prints and the status it ends with. *)
From Verif Require Import Base Base_Lemmas Py Out_Model Out_Spec Out_Proofs.
Open Scope string_scope.
Open Scope list_scope.
Open Scope Z_scope.

Section C137.
Variable int_str : Z -> string.

(** With --json a command that keeps to echo and returns a value prints one JSON
    document and nothing else; the document shows the value - or, when the value is
    the table of discovered devices and --host names one of them, that device. *)
Theorem json_document : forall args host a v,
  disciplined a -> ends a = Returned v -> writable (chosen host v) ->
  exists j, run int_str true args host a = mkOut [Doc j] 0 false /\ shows int_str (chosen host v) j.
Proof.
  intros args host a v D E W. apply (dumps_writable int_str) in W as [j Hj]. exists j. split; [|now apply dumps_shows].
  unfold run. rewrite E, Hj, silent by exact D. reflexivity.
Qed.

(** Whatever such a command does, standard output with --json is empty or one
    document; a document means success; success without one means that the user
    cancelled or that click ended the run (as for --version). *)
Theorem json_output : forall args host a, disciplined a ->
  let o := run int_str true args host a in
  (out o = [] \/ exists j, out o = [Doc j] /\ status o = 0) /\
  (status o = 0 -> out o = [] -> ends a = Aborted \/ exists c, c = 0 /\ (ends a = ClickExit c \/ ends a = SysExit c \/ ends a = ClickError c)).
Proof.
  intros args host a D. cbv zeta. unfold run. rewrite silent by exact D.
  destruct (ends a) as [v|c|c|c| |m|]; cbn [app fail spoken out status].
  - destruct (dumps int_str (chosen host v)) as [j|]; cbn.
    + split; [right; eauto|discriminate].
    + split; [left; now destruct (debug_of args)|discriminate].
  - split; [now left|]. intros -> _. right. exists 0. auto.
  - split; [now left|]. intros -> _. right. exists 0. auto.
  - split; [now left|]. intros -> _. right. exists 0. auto.
  - split; [now left|]. now left.
  - split; [left; now destruct (debug_of args)|discriminate].
  - split; [now left|discriminate].
Qed.

(** The document of a device is the same whether it is named by --host and
    discovered, shown by the discover command, or reached by given options.  (The
    state of a device is a table of replies; none of them is a device.) *)
Theorem json_same_document : forall args h d e1 e2 e3, h <> "" -> (forall k x s, ~ In (k, PDevice x s) d) ->
  run int_str true args (Some h) (found_by_host e1 h (PDict d)) = run int_str true args (Some h) (state e2 h (PDict d)) /\
  run int_str true args (Some h) (discover_host e3 h (PDict d)) = run int_str true args (Some h) (state e2 h (PDict d)).
Proof.
  intros args h d e1 e2 e3 Hh Hd.
  assert (S : forall e, flat_map (spoken true) (map Echo e) = []) by (induction e; auto).
  assert (C : chosen (Some h) (PDict d) = PDict d).
  { cbn [chosen]. destruct (String.eqb h ""); [reflexivity|]. destruct (pget h d) as [v|] eqn:E; [|reflexivity].
    destruct v as [|b|z|s|s|l|d'|x st|s]; try reflexivity. exfalso. clear -E Hd. induction d as [|[k v] d IH]; [discriminate|]. cbn in E.
    destruct k as [y|z|b| |]; try (apply IH; [|exact E]; intros k0 x0 s0 H; apply (Hd k0 x0 s0); now right).
    destruct (String.eqb h y); [injection E as ->; apply (Hd (KStr y) x st); now left|].
    apply IH; [|exact E]; intros k0 x0 s0 H; apply (Hd k0 x0 s0); now right. }
  unfold run, found_by_host, discover_host, state. cbn [says ends]. rewrite !S, C. cbn [chosen pget].
  destruct (String.eqb_spec h ""); [contradiction|]. rewrite String.eqb_refl. split; reflexivity.
Qed.

(** Without --json everything said is printed in order, no document appears, and a
    failure other than a refusal by click says why it happened. *)
Theorem plain_output : forall args host a,
  let o := run int_str false args host a in
  (exists more, out o = map (fun s => Text (words s)) (says a) ++ more /\ forall j, ~ In (Doc j) (out o)) /\
  (forall m, ends a = Raised m -> In (Text ("Raised error: " ++ m)%string) (out o) /\ status o = 1) /\
  (forall v, ends a = Returned v -> status o = 0 /\ out o = map (fun s => Text (words s)) (says a)).
Proof.
  intros args host a. cbv zeta. unfold run. rewrite aloud. set (l := map _ (says a)).
  assert (ND : forall j, ~ In (Doc j) l) by (intros j H; apply in_map_iff in H as (x & Hx & _); discriminate).
  destruct (ends a) as [v|c|c|c| |m|]; cbn [fail spoken out status]; (split; [|split]).
  all: try (exists (@nil line); rewrite app_nil_r; split; [reflexivity|exact ND]).
  all: try (intros ? H; discriminate H).
  all: try (intros; split; reflexivity).
  - eexists. split; [reflexivity|]. intros j H. apply in_app_or in H as [H|H]; [exact (ND j H)|].
    destruct (debug_of args); cbn in H; intuition discriminate.
  - intros m' H. injection H as <-. split; [|reflexivity]. apply in_or_app. right. now left.
Qed.
End C137.
Print Assumptions json_document.
Print Assumptions json_output.
Print Assumptions json_same_document.
Print Assumptions plain_output.

Definition digits (z : Z) : string := if z =? 1 then "1" else "0".
Definition usage : pv := PDict [(KInt 1, PFloat "0.25"); (KStr "host", PDevice "h" (PDict [(KStr "on", PBool true)]))].
Example json_document_example :
  disciplined (mkAct [Echo "working"] (Returned usage)) /\ writable (chosen (Some "x") usage) /\
  run digits true [] (Some "x") (mkAct [Echo "working"] (Returned usage))
  = mkOut [Doc (JObj [("1", JFloat "0.25"); ("host", JObj [("on", JBool true)])])] 0 false.
Proof.
  split; [|split; [|reflexivity]].
  - intros s [<-|[]]. eauto.
  - cbn. constructor. repeat (constructor; cbn; try discriminate).
Qed.
Example json_same_example :
  run digits true [] (Some "10.0.0.1") (discover_host ["Discovering"] "10.0.0.1" (PDict [(KStr "get_device_info", PDict [])]))
  = mkOut [Doc (JObj [("get_device_info", JObj [])])] 0 false.
Proof. reflexivity. Qed.

(** A failure with --json says nothing at all: the reason is lost. *)
Theorem json_failure_refuted : forall args host m,
  out (run digits true args host (mkAct [] (Raised m))) = [] /\ status (run digits true args host (mkAct [] (Raised m))) = 1
  /\ out (run digits true args host (error m)) = [].
Proof. intros args host m. unfold run. cbn. destruct (debug_of args); auto. Qed.
Print Assumptions json_failure_refuted.

(** Commands that print directly spoil the document, or print without one. *)
Theorem json_direct_refuted : forall args host e es,
  out (run digits true args host (child_logs (Some (e :: es)))) = map Text (e :: es) ++ [Doc JNull]
  /\ out (run digits true args host (records_list (Some (e :: es)))) = map Text (e :: es) ++ [Doc JNull]
  /\ (out (run digits true args host (schedule_list (e :: es))) = map Text (e :: es)
      /\ status (run digits true args host (schedule_list (e :: es))) = 1)
  /\ out (run digits true args host (reset_consumable [e] e)) = [Text ("Consumable " ++ e ++ " reset")%string; Doc JNull].
Proof.
  intros args host e es.
  assert (S : forall l, flat_map (spoken true) (map Direct l) = map Text l) by (induction l as [|x l IH]; cbn; congruence).
  assert (C : chosen host PNone = PNone) by (destruct host; reflexivity).
  unfold run, child_logs, records_list, schedule_list, reset_consumable, after, error, smem. cbn [existsb].
  rewrite String.eqb_refl. cbn [orb says ends]. rewrite flat_map_app, !S, C. cbn. rewrite app_nil_r. auto.
Qed.
Print Assumptions json_direct_refuted.

(** A run cancelled at a prompt ends with the status of success. *)
Theorem abort_status_refuted : forall json args host l, status (run digits json args host (mkAct l Aborted)) = 0.
Proof. reflexivity. Qed.
Print Assumptions abort_status_refuted.
