(** Applying light presets (C100). *)
From Coq Require Import QArith Lia.
From Verif Require Import Base Base_Lemmas Py IotLight_Model IotLight_Props SmartLight_Model SmartLight_Props Preset_Model.
Open Scope string_scope.
Open Scope list_scope.
Open Scope Z_scope.

(** ** Specification *)
(** Two values a preset may leave out: both left out, or the same number *)
Definition agree (a b : option arg) : Prop :=
  match a, b with None, None => True | Some x, Some y => (arg_q x == arg_q y)%Q | _, _ => False end.
(** Two presets a light cannot tell apart: same brightness; same colour temperature and same
    colour as far as it has those. *)
Definition alike (temp hsv : bool) (p q : light_state) : Prop :=
  agree (brightness p) (brightness q) /\ (temp = true -> agree (color_temp p) (color_temp q)) /\
  (hsv = true -> agree (hue p) (hue q) /\ agree (saturation p) (saturation q)).
Definition given (a : option arg) : Prop := exists x, a = Some x.
(** A preset that says everything about a light, and lights it *)
Definition complete (temp hsv : bool) (p : light_state) : Prop :=
  (exists b, brightness p = Some b /\ ~ (arg_q b == 0)%Q) /\ (temp = true -> given (color_temp p)) /\
  (hsv = true -> given (hue p) /\ given (saturation p)).
(** No colours are stored for a light without *)
Definition plain (hsv : bool) (p : light_state) : Prop := hsv = false -> hue p = None /\ saturation p = None.
(** The device now shows what it was told *)
Definition shows {A} (params state : dict A) : Prop := forall k v, dget k params = Some v -> dget k state = Some v.
(** A name is the first in a list that fits *)
Definition first_of {A} (fits : A -> Prop) (presets : dict A) (name : string) : Prop :=
  exists before p after, presets = before ++ (name, p) :: after /\ fits p /\ forall k q, In (k, q) before -> ~ fits q.

(** ** Proofs *)
Lemma eqb_q a b : eqb_arg a b = true <-> (arg_q a == arg_q b)%Q.
Proof. unfold eqb_arg. apply Qeq_bool_iff. Qed.
Lemma same_num p v : same p (option_map PNum v) = true <-> agree p v.
Proof. destruct p as [a|], v as [b|]; cbn [same option_map agree]; try (split; [discriminate|tauto]); [apply eqb_q|tauto]. Qed.
Lemma is_val_agree p v : is_val p v = true <-> agree p v.
Proof. destruct p as [a|], v as [b|]; cbn [is_val agree]; try (split; [discriminate|tauto]); [apply eqb_q|tauto]. Qed.
Lemma agree_sym a b : agree a b -> agree b a.
Proof. destruct a, b; cbn; auto. apply Qeq_sym. Qed.
Lemma agree_refl a : agree a a.
Proof. destruct a; cbn; [reflexivity|exact I]. Qed.
Lemma first_spec {A} (f : A -> bool) (P : A -> Prop) presets : (forall k p, In (k, p) presets -> (f p = true <-> P p)) ->
  first_of P presets (first f presets) \/ (first f presets = not_set /\ forall k p, In (k, p) presets -> ~ P p).
Proof.
  induction presets as [|[k p] l IH]; intro H; cbn [first]; [right; split; [reflexivity|intros k p []]|].
  pose proof (H k p (or_introl eq_refl)) as Hp. destruct (f p).
  - left. exists [], p, l. split; [reflexivity|]. split; [apply Hp; reflexivity|intros k' q []].
  - assert (Np : ~ P p) by (intro F; apply Hp in F; discriminate).
    destruct IH as [(B & q & C & E2 & F & N)|(E1 & N)]; [intros k' q Hq; apply (H k'); right; exact Hq| |].
    + left. exists ((k, p) :: B), q, C. split; [cbn [app]; rewrite <- E2; reflexivity|]. split; [exact F|].
      intros k' q' [X|X]; [injection X as <- <-; exact Np|exact (N k' q' X)].
    + right. split; [exact E1|]. intros k' q' [X|X]; [injection X as <- <-; exact Np|exact (N k' q' X)].
Qed.
Lemma dget_In_pair {A} k (p : A) d : dget k d = Some p -> In (k, p) d.
Proof.
  induction d as [|[k' v] d IH]; cbn [dget]; [discriminate|]. destruct (String.eqb_spec k k') as [->|_]; [intros [= ->]; left; reflexivity|].
  intro H. right. apply IH, H.
Qed.

(** What the name read says: the first listed preset that fits the light's values, or none does. *)
Lemma smart_preset_read_lemma : forall temp hsv info presets b t h s,
  dget "brightness" info = Some (PNum b) ->
  (temp = true -> dget "color_temp" info = Some (PNum t)) ->
  (hsv = true -> dget "hue" info = Some (PNum h) /\ dget "saturation" info = Some (PNum s)) ->
  (forall k p, In (k, p) presets -> plain hsv p) ->
  let now := mkLight None (Some b) (Some h) (Some s) (Some t) None in
  exists name, smart_preset temp hsv info presets = Ok name /\
    (first_of (alike temp hsv now) presets name \/ (name = not_set /\ forall k p, In (k, p) presets -> ~ alike temp hsv now p)).
Proof.
  intros temp hsv info presets b t h s Hb Ht Hh Hp now.
  unfold smart_preset, dindex. rewrite Hb.
  match goal with |- exists name, ?m = _ /\ _ => assert (E : exists f, m = Ok (first f presets) /\ forall p, plain hsv p -> (f p = true <-> alike temp hsv now p)) end.
  { destruct temp; cbn [bind]; [rewrite (Ht eq_refl); cbn [bind]|].
    all: eexists; split; [reflexivity|]; intros p Pl; unfold get0, alike, now; cbn [brightness color_temp hue saturation].
    all: destruct hsv; [destruct (Hh eq_refl) as [-> ->]|destruct (Pl eq_refl) as [-> ->]].
    all: rewrite !andb_true_iff, ?orb_true_iff.
    all: change (Some (PNum b)) with (option_map PNum (Some b)); try change (Some (PNum t)) with (option_map PNum (Some t));
         try change (Some (PNum h)) with (option_map PNum (Some h)); try change (Some (PNum s)) with (option_map PNum (Some s)).
    all: rewrite ?same_num; cbn [negb same].
    all: split; [intros [[[A1 A2] A3] A4]|intros (A1 & A2 & A3)].
    all: repeat split; auto using agree_sym; try discriminate.
    all: try (destruct A2 as [A2|A2]; [|discriminate]; intros _; apply agree_sym, A2).
    all: try (left; apply agree_sym, A2; reflexivity).
    all: try (apply agree_sym, A3; reflexivity). }
  destruct E as (g & -> & G). exists (first g presets). split; [reflexivity|]. apply first_spec. intros k p Hk. apply G, (Hp k p Hk).
Qed.
Theorem smart_preset_read : forall temp hsv info presets b t h s,
  dget "brightness" info = Some (PNum b) ->
  (temp = true -> dget "color_temp" info = Some (PNum t)) ->
  (hsv = true -> dget "hue" info = Some (PNum h) /\ dget "saturation" info = Some (PNum s)) ->
  (forall k p, In (k, p) presets -> plain hsv p) ->
  let now := mkLight None (Some b) (Some h) (Some s) (Some t) None in
  exists name, smart_preset temp hsv info presets = Ok name /\
    (first_of (alike temp hsv now) presets name \/ (name = "Not set" /\ forall k p, In (k, p) presets -> ~ alike temp hsv now p)).
Proof. exact smart_preset_read_lemma. Qed.
Print Assumptions smart_preset_read.

(** The presets a SMART light lists, from any reply *)
Lemma numbered_wf prefix l : forall n, dwf (numbered prefix n l).
Proof.
  induction l as [|x l IH]; intro n; unfold dwf, numbered; cbn [length seq combine map fst snd dkeys]; [constructor|].
  constructor; [|apply (IH (S n))]. intro H. apply (numbered_key prefix (S n) l) in H as (m & Hm & E). apply append_inj, dec_inj in E. lia.
Qed.
Lemma numbered_state prefix l : forall n k q, In (k, q) (numbered prefix n l) -> In q l.
Proof.
  induction l as [|x l IH]; intros n k q H; [destruct H|]. unfold numbered in H. cbn [length seq combine map fst snd] in H.
  destruct H as [[= <- <-]|H]; [left; reflexivity|right; exact (IH (S n) k q H)].
Qed.
Lemma smart_listed old states levels : exists prefix l, sp_presets (smart_post_update old states levels) = numbered prefix 0 l /\
  (prefix = "Light preset " \/ prefix = "Brightness preset ") /\ forall s, In s l -> light_on s = None /\ transition s = None.
Proof.
  destruct states as [|e st].
  - exists "Brightness preset ", (map (fun b => mkLight None (Some b) None None None None) levels). split; [|split; [tauto|]].
    + destruct levels as [|b l]; [reflexivity|]. unfold smart_post_update. cbn [sp_presets].
      exact (from_brightness_spec (b :: l) []).
    + intros s H. apply in_map_iff in H as (b & <- & _). split; reflexivity.
  - exists "Light preset ", (map sstate (filter is_preset (e :: st))). split; [apply smart_presets_listed; discriminate|]. split; [tauto|].
    intros s H. apply in_map_iff in H as (x & <- & _). split; reflexivity.
Qed.
Lemma not_unset prefix n : prefix = "Light preset " \/ prefix = "Brightness preset " -> (prefix ++ dec n)%string <> not_set.
Proof. intros [->| ->]; discriminate. Qed.
Lemma in_split_pair {A} (l B C : list A) x : l = B ++ x :: C -> In x l.
Proof. intros ->. apply in_or_app. right. left. reflexivity. Qed.

(** Applying a listed preset makes one call, with the device on and its values; then the light's
    preset is the first listed one it cannot tell from that preset, so that one if there is no
    other. *)
Theorem smart_preset_applied_partial : forall reply temp hsv old states levels name p,
  let presets := sp_presets (smart_post_update old states levels) in
  dget name presets = Some p -> complete temp hsv p -> (forall k q, dget k presets = Some q -> plain hsv q) ->
  exists params, params_are params [("device_on", Some (PBool true)); ("brightness", pnum (brightness p)); ("hue", pnum (hue p));
                                    ("saturation", pnum (saturation p)); ("color_temp", pnum (color_temp p))] /\
    (forall log, smart_set_preset reply hsv presets name log = (log ++ [mkCall "set_device_info" params], reply (mkCall "set_device_info" params))) /\
    forall info, shows params info ->
      exists name', smart_preset temp hsv info presets = Ok name' /\ first_of (alike temp hsv p) presets name' /\
        ((forall k q, dget k presets = Some q -> alike temp hsv p q -> k = name) -> name' = name).
Proof.
  intros reply temp hsv old states levels name p presets Hn (Hb & Ht & Hh) Hp.
  destruct (smart_listed old states levels) as (prefix & l & El & Pr & Hl). fold presets in El.
  pose proof (numbered_wf prefix l 0) as Wf. rewrite <- El in Wf.
  pose proof (dget_In_pair _ _ _ Hn) as Hin.
  destruct (Hl p) as [L1 L2]; [apply (numbered_state prefix l 0 name); rewrite <- El; exact Hin|].
  destruct (state_call_partial_lemma reply p) as (params & Pa & Call).
  destruct Hb as (b & Eb & Nz). rewrite Eb, L1, L2 in Pa.
  assert (Z0 : eqb_arg b (AInt 0) = false) by (destruct (eqb_arg b (AInt 0)) eqn:E; [apply eqb_q in E; contradiction|reflexivity]).
  rewrite Z0 in Pa. cbn [orb negb option_map pnum] in Pa.
  exists params. split; [|split].
  - rewrite Eb. cbn [pnum]. intro k. rewrite (Pa k). cbn [dget].
    repeat match goal with |- context [String.eqb k ?s] => destruct (String.eqb k s); [reflexivity|] end. reflexivity.
  - intro log. unfold smart_set_preset. destruct (String.eqb_spec name not_set) as [->|_].
    + exfalso. apply dget_In_pair in Hn. rewrite El in Hn. assert (K : In not_set (dkeys (numbered prefix 0 l))) by (apply (in_map fst) in Hn; exact Hn).
      apply numbered_key in K as (m & _ & E). exact (not_unset prefix (S m) Pr (eq_sym E)).
    + rewrite Hn. apply Call.
  - intros info Sh.
    assert (Pl : forall k q, In (k, q) presets -> plain hsv q) by (intros k q Hk; apply (Hp k), In_dget; assumption).
    assert (Ib : dget "brightness" info = Some (PNum b)) by (apply Sh; rewrite Pa; reflexivity).
    destruct (color_temp p) as [t|] eqn:Et; [|destruct temp; [destruct (Ht eq_refl); discriminate|]].
    1: assert (It : temp = true -> dget "color_temp" info = Some (PNum t)) by (intros _; apply Sh; rewrite Pa; reflexivity).
    2: set (t := AInt 0); assert (It : false = true -> dget "color_temp" info = Some (PNum t)) by discriminate.
    all: assert (Ih : exists h s, (hsv = true -> dget "hue" info = Some (PNum h) /\ dget "saturation" info = Some (PNum s)) /\ (hsv = true -> hue p = Some h /\ saturation p = Some s))
      by (destruct hsv; [destruct (Hh eq_refl) as [[h E1] [s E2]]; exists h, s; rewrite E1, E2 in Pa; repeat split; try (apply Sh; rewrite Pa; reflexivity); assumption
                        |exists (AInt 0), (AInt 0); split; discriminate]).
    all: destruct Ih as (h & s & Ih & Eh).
    1: destruct (smart_preset_read temp hsv info presets b t h s Ib It Ih Pl) as (name' & E & R).
    2: destruct (smart_preset_read false hsv info presets b t h s Ib It Ih Pl) as (name' & E & R).
    all: exists name'; split; [exact E|].
    1: assert (Al : forall q, alike temp hsv (mkLight None (Some b) (Some h) (Some s) (Some t) None) q <-> alike temp hsv p q).
    3: assert (Al : forall q, alike false hsv (mkLight None (Some b) (Some h) (Some s) (Some t) None) q <-> alike false hsv p q).
    1,3: intro q; unfold alike; rewrite Eb, ?Et; cbn [brightness color_temp hue saturation]; destruct hsv; [destruct (Eh eq_refl) as [-> ->]|]; (split; intros (A1 & A2 & A3); repeat split; auto; try discriminate; apply A3; reflexivity).
    all: assert (Self : forall x, alike x hsv p p) by (unfold alike; repeat split; intros; apply agree_refl).
    all: destruct R as [(B & q & C & E2 & F & N)|[_ N]]; [|exfalso; apply (N name p Hin), Al, Self].
    all: split; [exists B, q, C; split; [exact E2|]; split; [apply Al, F|intros k' q' H X; apply (N k' q' H), Al, X]|].
    all: intro Un; apply (Un name' q); [apply In_dget; [exact Wf|exact (in_split_pair _ _ _ _ E2)]|apply Al, F].
Qed.
Print Assumptions smart_preset_applied_partial.
(** An L530: the third preset, then another listed with the same values *)
Example smart_applied_ex :
  let sp := smart_post_update (mkSP [] false) [mkSE (Some (AInt 50)) (Some (AInt 2700)) (Some (AInt 0)) (Some (AInt 100)); mkSE (Some (AInt 100)) (Some (AInt 0)) (Some (AInt 240)) (Some (AInt 100))] [] in
  dget "Light preset 2" (sp_presets sp) = Some (mkLight None (Some (AInt 100)) (Some (AInt 240)) (Some (AInt 100)) (Some (AInt 0)) None) /\
  smart_preset true true [("brightness", PNum (AInt 100)); ("color_temp", PNum (AInt 0)); ("hue", PNum (AInt 240)); ("saturation", PNum (AInt 100))] (sp_presets sp) = Ok "Light preset 2".
Proof. split; reflexivity. Qed.
(** A name that is not listed is refused and nothing is sent. *)
Theorem smart_preset_unknown : forall reply hsv presets name,
  ~ In name (preset_list presets) -> forall log, smart_set_preset reply hsv presets name log = (log, Err PyValueError).
Proof.
  intros reply hsv presets name N log. unfold smart_set_preset. destruct (String.eqb_spec name not_set) as [->|_]; [exfalso; apply N; left; reflexivity|].
  destruct (dget name presets) eqn:E; [|reflexivity]. exfalso. apply N. right. apply dget_In_pair in E. apply (in_map fst) in E. exact E.
Qed.
Print Assumptions smart_preset_unknown.
Example smart_unknown_ex : ~ In "Light preset 9" (preset_list [("Light preset 1", mkLight None (Some (AInt 5)) None None None None)]).
Proof. intros [H|[H|[]]]; discriminate. Qed.
(** Every listed name is accepted, "Not set" too; but choosing that one may select a preset: on a
    dimmer with the presets 100, 75, ... it selects the first. *)
Theorem smart_unset_refuted : exists presets params info,
  presets = sp_presets (smart_post_update (mkSP [] false) [] [AInt 100; AInt 75; AInt 50; AInt 25; AInt 1]) /\
  (forall reply log, smart_set_preset reply false presets "Not set" log = (log ++ [mkCall "set_device_info" params], reply (mkCall "set_device_info" params))) /\
  shows params info /\ smart_preset false false info presets = Ok "Brightness preset 1".
Proof.
  eexists _, _, _. split; [reflexivity|]. split; [intros; reflexivity|]. split; [intros k v H; exact H|]. reflexivity.
Qed.
Print Assumptions smart_unset_refuted.
(** A preset that names a colour is never current on a light without colours. *)
Lemma smart_colour_refuted_lemma : exists temp presets name p params,
  dget name presets = Some p /\ complete temp false p /\
  (forall reply log, smart_set_preset reply false presets name log = (log ++ [mkCall "set_device_info" params], reply (mkCall "set_device_info" params))) /\
  forall info, shows params info -> smart_preset temp false info presets = Ok not_set.
Proof.
  pose (p := mkLight None (Some (AInt 50)) (Some (AInt 0)) (Some (AInt 100)) (Some (AInt 2700)) None).
  exists true, [("Light preset 1", p)], "Light preset 1", p. eexists. split; [reflexivity|]. split; [|split; [intros; reflexivity|]].
  - split; [exists (AInt 50); split; [reflexivity|intro H; discriminate H]|]. split; [intros _; exists (AInt 2700); reflexivity|discriminate].
  - intros info Sh. unfold smart_preset, dindex. rewrite (Sh "brightness" (PNum (AInt 50)) eq_refl), (Sh "color_temp" (PNum (AInt 2700)) eq_refl). reflexivity.
Qed.
Theorem smart_colour_refuted : exists temp presets name p params,
  dget name presets = Some p /\ complete temp false p /\
  (forall reply log, smart_set_preset reply false presets name log = (log ++ [mkCall "set_device_info" params], reply (mkCall "set_device_info" params))) /\
  forall info, shows params info -> smart_preset temp false info presets = Ok "Not set".
Proof. exact smart_colour_refuted_lemma. Qed.
Print Assumptions smart_colour_refuted.

(** ** Legacy bulbs *)
Lemma iot_preset_read_lemma : forall b d presets v t h s,
  is_dimmable b = true -> dget "brightness" (shown d) = Some (AInt v) ->
  (is_variable b = true -> dget "color_temp" (shown d) = Some (AInt t)) ->
  (is_color b = true -> dget "hue" (shown d) = Some h /\ dget "saturation" (shown d) = Some s) ->
  let now := mkLight None (Some (AInt v)) (Some h) (Some s) (Some (AInt t)) None in
  let fits p := alike (is_variable b) (is_color b) now (i_state p) in
  exists name, iot_preset b d presets = Ok name /\
    (first_of fits presets name \/ (name = not_set /\ forall k p, In (k, p) presets -> ~ fits p)).
Proof.
  intros b d presets v t h s Hd Hv Ht Hh now fits. unfold iot_preset. rewrite Hd. cbn [negb]. unfold dindex. rewrite Hv. cbn [bind int_arg].
  match goal with |- exists name, ?m = _ /\ _ => assert (E : exists f, m = Ok (first f presets) /\ forall p, f p = true <-> fits p) end.
  { unfold fits, now, alike. cbn [brightness color_temp hue saturation].
    destruct (is_variable b); cbn [bind]; [rewrite (Ht eq_refl); cbn [bind int_arg]|]; (destruct (is_color b); [destruct (Hh eq_refl) as [-> ->]|]); cbn [bind fst snd negb];
      eexists; (split; [reflexivity|]); intro p; cbv zeta; rewrite !andb_true_iff, ?orb_false_r, ?orb_true_r, ?is_val_agree;
      (split; [intros [[[A1 A2] A3] A4]|intros (A1 & A2 & A3)]); repeat split; auto using agree_sym; try discriminate.
    all: try (apply agree_sym, A2; reflexivity).
    all: try (apply agree_sym, A3; reflexivity). }
  destruct E as (g & -> & G). exists (first g presets). split; [reflexivity|]. apply first_spec. intros k p _. apply G.
Qed.
Theorem iot_preset_read : forall b d presets v t h s,
  is_dimmable b = true -> dget "brightness" (shown d) = Some (AInt v) ->
  (is_variable b = true -> dget "color_temp" (shown d) = Some (AInt t)) ->
  (is_color b = true -> dget "hue" (shown d) = Some h /\ dget "saturation" (shown d) = Some s) ->
  let now := mkLight None (Some (AInt v)) (Some h) (Some s) (Some (AInt t)) None in
  let fits p := alike (is_variable b) (is_color b) now (i_state p) in
  exists name, iot_preset b d presets = Ok name /\
    (first_of fits presets name \/ (name = "Not set" /\ forall k p, In (k, p) presets -> ~ fits p)).
Proof. exact iot_preset_read_lemma. Qed.
Print Assumptions iot_preset_read.
Lemma iot_list_wf : forall l n d, dwf d -> dwf (iot_list_from n l d).
Proof. induction l as [|[e|] l IH]; intros n d H; cbn [iot_list_from]; [exact H|apply IH, dwf_dset, H|apply IH, H]. Qed.
Lemma iot_list_names : forall l n d k p, dget k (iot_list_from n l d) = Some p -> dget k d = Some p \/ exists m, k = preset_name m /\ In (Some p) l.
Proof.
  induction l as [|[e|] l IH]; intros n d k p H; cbn [iot_list_from] in H; [left; exact H| |].
  - apply IH in H as [H|(m & E & I)]; [|right; exists m; split; [exact E|right; exact I]].
    rewrite dget_dset in H. destruct (String.eqb_spec k (preset_name (n + 1))) as [->|_]; [|left; exact H].
    injection H as ->. right. exists (n + 1)%nat. split; [reflexivity|left; reflexivity].
  - apply IH in H as [H|(m & E & I)]; [left; exact H|right; exists m; split; [exact E|right; exact I]].
Qed.
(** Entry number n of the device is listed as "Light preset n+1" (entries with an id, the effects, are
    counted but not listed), and nothing else is listed. *)
Theorem iot_preset_named : forall l name p,
  dget name (iot_list l) = Some p <-> exists n, nth_error l n = Some (Some p) /\ name = preset_name (S n).
Proof.
  intros l name p. unfold iot_list.
  assert (G : forall l n d, (forall m, (n <= m)%nat -> ~ In (preset_name (S m)) (dkeys d)) ->
    dget name (iot_list_from n l d) = Some p <-> dget name d = Some p \/ exists m, nth_error l m = Some (Some p) /\ name = preset_name (S (n + m))).
  { clear l. induction l as [|o l IH]; intros n d F; cbn [iot_list_from].
    - split; [auto|]. intros [H|(m & H & _)]; [exact H|destruct m; discriminate].
    - assert (Sh : forall m, (S n + m)%nat = (n + S m)%nat) by (intro; lia).
      destruct o as [e|].
      + rewrite IH.
        * rewrite dget_dset. replace (n + 1)%nat with (S n) by lia.
          destruct (String.eqb_spec name (preset_name (S n))) as [E|E].
          -- split.
             ++ intros [[= ->]|(m & H1 & H2)]; right; [exists 0%nat; rewrite Nat.add_0_r; auto|exists (S m); rewrite <- Sh; auto].
             ++ intros [H|([|m] & H1 & H2)].
                ** exfalso. apply (F n (le_n n)). rewrite <- E. apply dget_In_pair in H. apply (in_map fst) in H. exact H.
                ** cbn in H1. injection H1 as ->. left. reflexivity.
                ** right. exists m. rewrite Sh. auto.
          -- split.
             ++ intros [H|(m & H1 & H2)]; [left; exact H|right; exists (S m); rewrite <- Sh; auto].
             ++ intros [H|([|m] & H1 & H2)]; [left; exact H|rewrite Nat.add_0_r in H2; congruence|right; exists m; rewrite Sh; auto].
        * intros m Lm I. apply in_map_iff in I as ((k & v) & Ek & I). cbn [fst] in Ek. subst k.
          replace (n + 1)%nat with (S n) in I by lia.
          rewrite (dset_fresh (preset_name (S n)) e d (F n (le_n n))) in I. apply in_app_or in I as [I|[I|[]]].
          -- apply (F m); [lia|]. apply (in_map fst) in I. exact I.
          -- apply (f_equal fst) in I. cbn [fst] in I. apply preset_name_inj in I. lia.
      + rewrite IH by (intros m Lm; apply F; lia). split.
        * intros [H|(m & H1 & H2)]; [left; exact H|right; exists (S m); rewrite <- Sh; auto].
        * intros [H|([|m] & H1 & H2)]; [left; exact H|discriminate|right; exists m; rewrite Sh; auto]. }
  rewrite (G l 0%nat []) by (intros m _ []). split; [intros [H|H]; [discriminate|exact H]|intro H; right; exact H].
Qed.
Print Assumptions iot_preset_named.
Example iot_preset_named_ex : let p := mkIP (mkLight None (Some (AInt 50)) None None None None) 1 None None in
  dkeys (iot_list [None; Some p]) = ["Light preset 2"].
Proof. reflexivity. Qed.
(** An entry of the device: numbers are ints, the brightness from 1 to 100; entries say nothing
    about on, off or a transition. *)
Definition stored (p : ipreset) : Prop :=
  light_on (i_state p) = None /\ transition (i_state p) = None /\ opt_ok (int_in 1 100) (brightness (i_state p)) /\
  opt_ok (fun t => is_int t = true) (color_temp (i_state p)).
Lemma iot_preset_applied_partial_lemma : forall reply b l name p,
  let presets := iot_list l in
  dget name presets = Some p -> stored p -> is_dimmable b = true -> complete (is_variable b) (is_color b) (i_state p) ->
  exists params, has_fields params [("on_off", Some (AInt 1)); ("ignore_default", Some (AInt 1)); ("brightness", brightness (i_state p)); ("hue", hue (i_state p));
                                    ("saturation", saturation (i_state p)); ("color_temp", color_temp (i_state p)); ("index", Some (AInt (i_index p)));
                                    ("custom", option_map AInt (i_custom p)); ("mode", option_map AInt (i_mode p))] /\
    (forall log, let r := mkReq (light_service b) (light_method b) params in iot_set_preset reply b presets name log = (log ++ [r], reply r)) /\
    forall d, l_on d = true -> shows params (l_state d) ->
      let fits q := alike (is_variable b) (is_color b) (i_state p) (i_state q) in
      exists name', iot_preset b d presets = Ok name' /\ first_of fits presets name' /\
        ((forall k q, dget k presets = Some q -> fits q -> k = name) -> name' = name).
Proof.
  intros reply b l name p presets Hn (S1 & S2 & S3 & S4) Hd (Hb & Ht & Hh).
  pose proof (iot_list_wf l 0 [] dwf_nil) as Wf. fold (iot_list l) in Wf. fold presets in Wf.
  pose proof (dget_In_pair _ _ _ Hn) as Hin.
  assert (Nn : String.eqb name not_set = false).
  { destruct (iot_list_names l 0 [] name p Hn) as [H|(m & -> & _)]; [discriminate|]. unfold preset_name. apply String.eqb_neq. discriminate. }
  unfold iot_set_preset. rewrite Nn, Hn.
  destruct p as [[on br h s c tr] ix cu mo]. cbn [i_state i_index i_custom i_mode light_on transition brightness hue saturation color_temp] in *. subst on tr.
  destruct Hb as (x & -> & Nz). destruct S3 as (v & -> & Hv).
  assert (Ev : eqb_arg (AInt v) (AInt 0) = false) by (rewrite eqb_int; apply Z.eqb_neq; lia).
  assert (Cv : check_brightness (AInt v) = Ok tt) by (apply check_ok; exists v; split; [reflexivity|lia]).
  set (params := ("brightness", AInt v) :: match h with Some x => [("hue", x)] | None => [] end ++ match s with Some x => [("saturation", x)] | None => [] end ++
     match c with Some x => [("color_temp", x)] | None => [] end ++ [("index", AInt ix)] ++ match cu with Some x => [("custom", AInt x)] | None => [] end ++
     match mo with Some x => [("mode", AInt x)] | None => [] end ++ [("on_off", AInt 1); ("ignore_default", AInt 1)]).
  exists params. split; [|split].
  - unfold params. destruct h, s, c, cu, mo; cbn [app option_map]; fields.
  - intro log. cbv zeta. unfold bulb_set_any, set_light_state, extra_fields. cbn [i_index i_custom i_mode light_on brightness hue saturation color_temp transition option_map put].
    destruct h, s, c, cu, mo; unfold params; cbn -[eqb_arg check_brightness light_service light_method];
      rewrite Ev; cbn -[eqb_arg check_brightness light_service light_method]; unfold mbind, mlift; rewrite Cv; cbn -[light_service light_method]; reflexivity.
  - intros d On Sh.
    assert (Sv : dget "brightness" (shown d) = Some (AInt v)) by (unfold shown; rewrite On; apply Sh; reflexivity).
    assert (Pc : forall x, c = Some x -> dget "color_temp" params = Some x) by (intros x ->; unfold params; destruct h, s; reflexivity).
    assert (Ph : forall x, h = Some x -> dget "hue" params = Some x) by (intros x ->; unfold params; reflexivity).
    assert (Ps : forall x, s = Some x -> dget "saturation" params = Some x) by (intros x ->; unfold params; destruct h; reflexivity).
    assert (It : exists t, (is_variable b = true -> dget "color_temp" (shown d) = Some (AInt t)) /\ (is_variable b = true -> c = Some (AInt t))).
    { destruct (is_variable b); [|exists 0; split; discriminate]. destruct (Ht eq_refl) as (t & ->). cbn [opt_ok] in S4. destruct t as [t|q]; [|discriminate].
      exists t. split; intros _; [unfold shown; rewrite On; apply Sh, Pc; reflexivity|reflexivity]. }
    assert (Ih : exists h' s', (is_color b = true -> dget "hue" (shown d) = Some h' /\ dget "saturation" (shown d) = Some s') /\ (is_color b = true -> h = Some h' /\ s = Some s')).
    { destruct (is_color b); [|exists (AInt 0), (AInt 0); split; discriminate]. destruct (Hh eq_refl) as [[h' ->] [s' ->]].
      exists h', s'. split; intros _; [unfold shown; rewrite On; split; apply Sh; [apply Ph|apply Ps]; reflexivity|split; reflexivity]. }
    destruct It as (t & It & Et), Ih as (h' & s' & Ih & Eh).
    destruct (iot_preset_read b d presets v t h' s' Hd Sv It Ih) as (name' & E & R). cbv zeta in R.
    exists name'. split; [exact E|].
    assert (Al : forall q, alike (is_variable b) (is_color b) (mkLight None (Some (AInt v)) (Some h') (Some s') (Some (AInt t)) None) q <->
                           alike (is_variable b) (is_color b) (mkLight None (Some (AInt v)) h s c None) q).
    { intro q. unfold alike. cbn [brightness color_temp hue saturation].
      destruct (is_variable b); [rewrite (Et eq_refl)|]; (destruct (is_color b); [destruct (Eh eq_refl) as [-> ->]|]);
        (split; intros (A1 & A2 & A3); repeat split; auto; try discriminate; apply A3; reflexivity). }
    assert (Self : forall x y, alike x y (mkLight None (Some (AInt v)) h s c None) (mkLight None (Some (AInt v)) h s c None)) by (unfold alike; repeat split; intros; apply agree_refl).
    destruct R as [(B & q & C & E2 & F & N)|[_ N]]; [|exfalso; apply (N _ _ Hin), Al, Self].
    split; [exists B, q, C; split; [exact E2|]; split; [apply Al, F|intros k' q' H X; apply (N k' q' H), Al, X]|].
    intro Un. apply (Un name' q); [apply In_dget; [exact Wf|exact (in_split_pair _ _ _ _ E2)]|apply Al, F].
Qed.
Theorem iot_preset_applied_partial : forall reply b l name p,
  let presets := iot_list l in
  dget name presets = Some p -> stored p -> is_dimmable b = true -> complete (is_variable b) (is_color b) (i_state p) ->
  exists params, has_fields params [("on_off", Some (AInt 1)); ("ignore_default", Some (AInt 1)); ("brightness", brightness (i_state p)); ("hue", hue (i_state p));
                                    ("saturation", saturation (i_state p)); ("color_temp", color_temp (i_state p)); ("index", Some (AInt (i_index p)));
                                    ("custom", option_map AInt (i_custom p)); ("mode", option_map AInt (i_mode p))] /\
    (forall log, let r := mkReq (lights_at b) (lights_by b) params in iot_set_preset reply b presets name log = (log ++ [r], reply r)) /\
    forall d, l_on d = true -> shows params (l_state d) ->
      let fits q := alike (is_variable b) (is_color b) (i_state p) (i_state q) in
      exists name', iot_preset b d presets = Ok name' /\ first_of fits presets name' /\
        ((forall k q, dget k presets = Some q -> fits q -> k = name) -> name' = name).
Proof. exact iot_preset_applied_partial_lemma. Qed.
Print Assumptions iot_preset_applied_partial.
Definition kl125 := mkBulb true true true "KL125(US)" false.
Definition kl125_presets := [Some (mkIP (mkLight None (Some (AInt 100)) (Some (AInt 0)) (Some (AInt 0)) (Some (AInt 4000)) None) 0 None None);
                             Some (mkIP (mkLight None (Some (AInt 100)) (Some (AInt 0)) (Some (AInt 100)) (Some (AInt 0)) None) 1 None None)].
Example iot_applied_ex : exists p, dget "Light preset 2" (iot_list kl125_presets) = Some p /\ stored p /\ complete true true (i_state p) /\
  fst (iot_set_preset (fun _ => Ok JNull) kl125 (iot_list kl125_presets) "Light preset 2" []) =
    [mkReq "smartlife.iot.smartbulb.lightingservice" "transition_light_state"
       [("brightness", AInt 100); ("hue", AInt 0); ("saturation", AInt 100); ("color_temp", AInt 0); ("index", AInt 1); ("on_off", AInt 1); ("ignore_default", AInt 1)]].
Proof.
  eexists. split; [reflexivity|]. split; [|split; [|reflexivity]].
  - repeat split; cbn; auto. exists 100. split; [reflexivity|lia].
  - split; [eexists; split; [reflexivity|intro H; discriminate H]|]. split; intros _; [eexists; reflexivity|split; eexists; reflexivity].
Qed.
Theorem iot_preset_unknown : forall reply b presets name,
  ~ In name (preset_list presets) -> forall log, iot_set_preset reply b presets name log = (log, Err PyValueError).
Proof.
  intros reply b presets name N log. unfold iot_set_preset. destruct (String.eqb_spec name not_set) as [->|_]; [exfalso; apply N; left; reflexivity|].
  destruct (dget name presets) eqn:E; [|reflexivity]. exfalso. apply N. right. apply dget_In_pair in E. apply (in_map fst) in E. exact E.
Qed.
Print Assumptions iot_preset_unknown.
(** Choosing "Not set" on that bulb, while it is at its first preset, leaves it there. *)
Theorem iot_unset_refuted : exists d d' params,
  iot_preset kl125 d (iot_list kl125_presets) = Ok "Light preset 1" /\
  (forall reply log, let r := mkReq "smartlife.iot.smartbulb.lightingservice" "transition_light_state" params in
     iot_set_preset reply kl125 (iot_list kl125_presets) "Not set" log = (log ++ [r], reply r)) /\
  l_on d' = true /\ l_state d' = dupdate (l_state d) params /\ iot_preset kl125 d' (iot_list kl125_presets) = Ok "Light preset 1".
Proof.
  pose (d := mkLamp true [("on_off", AInt 1); ("brightness", AInt 100); ("hue", AInt 0); ("saturation", AInt 0); ("color_temp", AInt 4000)] []).
  pose (params := [("brightness", AInt 100); ("hue", AInt 0); ("saturation", AInt 0); ("on_off", AInt 1); ("ignore_default", AInt 1)]).
  exists d, (mkLamp true (dupdate (l_state d) params) []), params. repeat split; reflexivity.
Qed.
Print Assumptions iot_unset_refuted.
(** A preset stored with brightness 0 turns the bulb off instead. *)
Lemma iot_preset_dark_refuted_lemma : forall reply b l name p,
  let presets := iot_list l in
  dget name presets = Some p -> light_on (i_state p) = None -> transition (i_state p) = None -> brightness (i_state p) = Some (AInt 0) ->
  exists params, dget "on_off" params = Some (AInt 0) /\ dget "brightness" params = None /\
    forall log, let r := mkReq (light_service b) (light_method b) params in iot_set_preset reply b presets name log = (log ++ [r], reply r).
Proof.
  intros reply b l name p presets Hn S1 S2 S3.
  assert (Nn : String.eqb name not_set = false).
  { destruct (iot_list_names l 0 [] name p Hn) as [H|(m & -> & _)]; [discriminate|]. unfold preset_name. apply String.eqb_neq. discriminate. }
  unfold iot_set_preset. rewrite Nn, Hn.
  destruct p as [[on br h s c tr] ix cu mo]. cbn [i_state i_index i_custom i_mode light_on transition brightness hue saturation color_temp] in *. subst on tr br.
  unfold extra_fields. cbn [i_index i_custom i_mode].
  enough (G : exists params, (forall log, let r := mkReq (light_service b) (light_method b) params in
    bulb_set_any reply b (mkLight None (Some (AInt 0)) h s c None) (put "mode" (option_map AInt mo) (put "custom" (option_map AInt cu) [("index", AInt ix)])) log = (log ++ [r], reply r)) /\
    dget "on_off" params = Some (AInt 0) /\ dget "brightness" params = None) by (destruct G as (ps & G1 & G2 & G3); exists ps; auto).
  unfold bulb_set_any, set_light_state. cbn [light_on brightness hue saturation color_temp transition option_map put].
  destruct h, s, c, cu, mo; eexists; (split; [intro log; cbn -[light_service light_method]; reflexivity|split; reflexivity]).
Qed.
Theorem iot_preset_dark_refuted : forall reply b l name p,
  let presets := iot_list l in
  dget name presets = Some p -> light_on (i_state p) = None -> transition (i_state p) = None -> brightness (i_state p) = Some (AInt 0) ->
  exists params, dget "on_off" params = Some (AInt 0) /\ dget "brightness" params = None /\
    forall log, let r := mkReq (lights_at b) (lights_by b) params in iot_set_preset reply b presets name log = (log ++ [r], reply r).
Proof. exact iot_preset_dark_refuted_lemma. Qed.
Print Assumptions iot_preset_dark_refuted.
