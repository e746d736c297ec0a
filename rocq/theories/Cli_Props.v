(** C123, C124: the options of the command line tool and the device it uses. *)
From Verif Require Import Base Base_Lemmas Py Factory_Model Cli_Model Cli_Spec.
From Coq Require Import Lia.
Open Scope string_scope.
Open Scope list_scope.
Open Scope Z_scope.

Lemma given_str_false s : given_str s = false <-> absent s.
Proof.
  unfold absent. destruct s as [s|]; cbn.
  - destruct (String.eqb_spec s ""); cbn; split; intros H; try discriminate; subst; auto.
    destruct H as [H|H]; [discriminate|]. injection H as H. contradiction.
  - split; auto.
Qed.
Lemma given_str_true s : given_str s = true <-> ~ absent s.
Proof. rewrite <- given_str_false. destruct (given_str s); split; intros; congruence. Qed.
Lemma account_is o : login_is o (account o).
Proof.
  unfold login_is, account, absent.
  destruct (o_user o) as [u|], (o_password o) as [p|]; auto.
  destruct (String.eqb_spec u ""), (String.eqb_spec p ""); cbn; subst; auto.
Qed.
Lemma login_unique o c c' : login_is o c -> login_is o c' -> c = c'.
Proof.
  unfold login_is, absent. destruct c as [[u p]|], c' as [[u' p']|]; try congruence; intros H H'.
  - destruct H as (A & B & _), H' as (A' & B' & _). congruence.
  - destruct H as (A & B & C & E). destruct H' as [[F|F]|[F|F]]; congruence.
  - destruct H' as (A & B & C & E). destruct H as [[F|F]|[F|F]]; congruence.
Qed.
Lemma family_of_some s f : family_of (JStr s) = Some f <-> family_value f = s.
Proof.
  cbn [family_of]. split.
  - intros H. apply find_some in H. destruct H as [_ H]. now apply String.eqb_eq in H.
  - intros <-. destruct f; vm_compute; reflexivity.
Qed.
Lemma described_config o c : smart_config o = Some c <-> described o c.
Proof.
  unfold smart_config, described, is_camera. split.
  - destruct (o_type o) as [[]|] eqn:T;
    (destruct (family_of _) as [f|] eqn:F; [|discriminate]); intros H; injection H as <-; cbn;
    (repeat (apply conj); [reflexivity | reflexivity | reflexivity | reflexivity | apply account_is | reflexivity | |]).
    all: try (intros H; discriminate H).
    all: try (intros H; now contradiction H).
    all: try (intros _; apply family_of_some in F; repeat apply conj; auto; destruct (o_enc o); auto; fail).
    intros _. vm_compute in F. injection F as <-. auto.
  - intros (H1 & H2 & H3 & H4 & H5 & H6 & H7 & H8). destruct c as [h p cr ha ti [f e lv ht hp]];
    cbn [c_host c_port c_creds c_hash c_timeout c_conn family_ enc_ login_version https http_port] in *.
    pose proof (login_unique _ _ _ H5 (account_is o)) as A. subst.
    destruct (o_type o) as [[]|] eqn:T.
    all: try (destruct H8 as (F & E & G & L); [congruence|]; apply family_of_some in F; cbv beta iota zeta;
      rewrite F; rewrite G, L; destruct E as [E | [E ->]]; rewrite E; reflexivity).
    destruct (H7 eq_refl) as (F & E & G & L); subst. reflexivity.
Qed.
Lemma older_iff t cls : older t cls <-> legacy_class t = Some cls.
Proof. destruct t; cbn; split; intros H; try discriminate; try contradiction; congruence. Qed.
Lemma raw_iff s : existsb (String.eqb s) SKIP_UPDATE_COMMANDS = true <-> raw s.
Proof.
  unfold raw. cbn. destruct (String.eqb_spec s "raw-command"), (String.eqb_spec s "command"); cbn; subst;
  split; intros H; auto; try discriminate. destruct H; contradiction.
Qed.

(** ** C123 *)
Theorem contradictory_options_refused : forall D (w : world D) o,
  o_help o = false -> conflicting o -> refused (cli w o []).
Proof.
  intros D w o H C. unfold cli, refused. rewrite H.
  destruct (negb (String.eqb (o_target o) DEFAULT_TARGET) && given_str (o_host o)) eqn:T; [left; reflexivity|].
  destruct C as [[A B]|[S C]].
  { exfalso. apply given_str_true in B. rewrite B, Bool.andb_true_r in T. apply Bool.negb_false_iff, String.eqb_eq in T.
    now apply A. }
  assert (E : match o_sub o with Some s => String.eqb s "discover" | None => false end = false).
  { destruct (o_sub o) as [s|]; [|reflexivity]. destruct (String.eqb_spec s "discover"); [subst; contradiction|reflexivity]. }
  rewrite E.
  destruct (is_some (o_alias o) && is_some (o_host o)) eqn:X; [right; reflexivity|].
  destruct C as [[A B]|C].
  { exfalso. destruct (o_alias o), (o_host o); try discriminate; now try apply A; try apply B. }
  destruct (xorb _ _) eqn:Y; [right; reflexivity|].
  destruct C as [[A B]|[[A B]|(A & B & C)]].
  - exfalso. apply given_str_false in A. apply given_str_true in B. rewrite A, B in Y. discriminate.
  - exfalso. apply given_str_false in B. apply given_str_true in A. rewrite A, B in Y. discriminate.
  - rewrite B, C. cbn. destruct (o_sub o); [left; reflexivity|contradiction].
Qed.
Print Assumptions contradictory_options_refused.

Section Runs.
Context {D : Type}.
Variable w : world D.

Definition rest (o : opts) : option (D * bool * bool) -> P unit := fun r =>
  match r with
  | None => match o_sub o with None => pret tt | Some s => pstop (Raise (w_orphan w s)) end
  | Some (d, updated, discovered) =>
      let skip := match o_sub o with Some s => existsb (String.eqb s) SKIP_UPDATE_COMMANDS | None => false end in
      pbind (if negb skip && negb updated then update w d else pret tt) (fun _ => use w o d discovered)
  end.
Lemma cli_cases o : 
  cli w o = pret tt /\ o_help o = true
  \/ (exists f, cli w o = pstop f)
  \/ (cli w o = pbind (discover w o) (fun _ => pret tt) /\ o_help o = false /\ (o_sub o = Some "discover" \/ o_sub o = None /\ o_host o = None))
  \/ (cli w o = pbind (make w o) (rest o) /\ o_help o = false /\ o_sub o <> Some "discover" /\ (o_alias o = None \/ o_host o = None)
      /\ ~ (o_alias o = None /\ o_host o = None)).
Proof.
  unfold cli.
  destruct (o_help o); [left; auto|right].
  destruct (negb _ && _); [left; eauto|].
  destruct (match o_sub o with Some s => String.eqb s "discover" | None => false end) eqn:S.
  { right. left. split; [reflexivity|]. split; [reflexivity|]. left.
    destruct (o_sub o) as [s|]; [|discriminate]. apply String.eqb_eq in S. now subst. }
  destruct (is_some (o_alias o) && is_some (o_host o)) eqn:X; [left; eauto|].
  destruct (xorb _ _); [left; eauto|].
  destruct (negb (is_some (o_host o)) && negb (is_some (o_alias o))) eqn:Y.
  { destruct (is_some (o_sub o)) eqn:Z; [left; eauto|]. right. left. split; [reflexivity|]. split; [reflexivity|]. right.
    destruct (o_sub o), (o_host o); try discriminate; auto. }
  right. right. split; [reflexivity|]. split; [reflexivity|]. split; [|split].
  - destruct (o_sub o) as [s|]; [|discriminate]. intros E. injection E as ->. discriminate.
  - destruct (o_alias o), (o_host o); try discriminate; auto.
  - intros [A B]. rewrite A, B in Y. discriminate.
Qed.
Lemma cli_go o s : o_help o = false -> ~ conflicting o -> o_sub o = Some s -> s <> "discover" ->
  cli w o = pbind (make w o) (rest o).
Proof.
  intros H C S N. unfold cli. rewrite H.
  destruct (negb _ && _) eqn:T.
  { exfalso. apply C. left. apply andb_prop in T. destruct T as [T G]. apply given_str_true in G. split; [|exact G].
    intros E. rewrite E in T. discriminate. }
  assert (E : match o_sub o with Some s => String.eqb s "discover" | None => false end = false).
  { rewrite S. now destruct (String.eqb_spec s "discover"). }
  rewrite E.
  destruct (is_some (o_alias o) && is_some (o_host o)) eqn:X.
  { exfalso. apply C. right. split; [congruence|]. left. destruct (o_alias o), (o_host o); try discriminate; split; congruence. }
  destruct (xorb _ _) eqn:Y.
  { exfalso. apply C. right. split; [congruence|].
    destruct (given_str (o_password o)) eqn:G1, (given_str (o_user o)) eqn:G2; try discriminate.
    - apply given_str_true in G1. apply given_str_false in G2. auto.
    - apply given_str_false in G1. apply given_str_true in G2. auto. }
  destruct (negb (is_some (o_host o)) && negb (is_some (o_alias o))) eqn:Z.
  { exfalso. apply C. right. split; [congruence|]. right. right. right. split; [congruence|].
    destruct (o_alias o), (o_host o); try discriminate; auto. }
  reflexivity.
Qed.

Definition outcome (pre : list (ev D)) (s : string) (d : D) : step unit :=
  match w_disconnect w (pre ++ [Run s d]) d with
  | Err x => Stop (Raise x)
  | Ok _ => match w_run w pre s d with Ok _ => Go tt | Err x => Stop (Raise x) end
  end.
Lemma use_run o s d b pre : o_sub o = Some s ->
  use w o d b pre = (pre ++ [Run s d; Disconnect d], outcome pre s d).
Proof.
  intros S. unfold use, outcome. rewrite S. unfold disconnect, act. rewrite <- app_assoc. cbn [app].
  destruct (w_disconnect w _ d); [|reflexivity]. now destruct (w_run w pre s d) as [[]|].
Qed.
Lemma refreshed_rest o s d b before l : o_sub o = Some s -> refreshed w s d before l ->
  rest o (Some (d, false, b)) before = use w o d b l.
Proof.
  intros S R. unfold rest. rewrite S. destruct R as [[R ->]|(R & U & ->)].
  - apply raw_iff in R. rewrite R. reflexivity.
  - destruct (existsb _ _) eqn:E; [apply raw_iff in E; contradiction|]. cbn [negb andb].
    unfold pbind, update, act. rewrite U. reflexivity.
Qed.
Lemma rest_refreshed o s d b before l r d' s' : o_sub o = Some s -> rest o (Some (d, false, b)) before = (l, r) ->
  (forall x y, ~ In (Run x y) before) -> In (Run s' d') l ->
  exists pre, refreshed w s d before pre /\ l = pre ++ [Run s d; Disconnect d] /\ s' = s /\ d' = d.
Proof.
  intros S R N I. unfold rest in R. rewrite S in R.
  destruct (existsb _ _) eqn:E; cbn [negb andb] in R.
  - unfold pbind, pret in R. rewrite (use_run o s) in R by exact S. injection R as <- _.
    exists before. split; [left; split; [now apply raw_iff|reflexivity]|]. split; [reflexivity|].
    apply in_app_or in I. destruct I as [I|[I|[I|[]]]]; [now apply N in I| |discriminate]. injection I as -> ->. auto.
  - unfold pbind, update, act in R. destruct (w_update w before d) as [[]|x] eqn:U.
    + rewrite (use_run o s) in R by exact S. injection R as <- _. exists (before ++ [Update d]).
      split; [right; split; [|auto]|].
      { intros F. apply raw_iff in F. congruence. }
      split; [reflexivity|].
      apply in_app_or in I. destruct I as [I|[I|[I|[]]]]; [| |discriminate].
      * apply in_app_or in I. destruct I as [I|[I|[]]]; [now apply N in I|discriminate].
      * injection I as -> ->. auto.
    + injection R as <- _. apply in_app_or in I. destruct I as [I|[I|[]]]; [now apply N in I|discriminate].
Qed.

Lemma rest_ready o s d b before l r d' s' : o_sub o = Some s -> rest o (Some (d, true, b)) before = (l, r) ->
  (forall x y, ~ In (Run x y) before) -> In (Run s' d') l ->
  l = before ++ [Run s d; Disconnect d] /\ s' = s /\ d' = d.
Proof.
  intros S R N I. unfold rest in R. rewrite Bool.andb_false_r in R. unfold pbind, pret in R.
  rewrite (use_run o s) in R by exact S. injection R as <- _. split; [reflexivity|].
  apply in_app_or in I. destruct I as [I|[I|[I|[]]]]; [now apply N in I| |discriminate]. injection I as -> ->. auto.
Qed.
End Runs.

Theorem command_runs : forall D (w : world D) o s pre d,
  o_help o = false -> ~ conflicting o -> o_sub o = Some s -> s <> "discover" -> approach w o s pre d ->
  cli w o [] =
    (pre ++ [Run s d; Disconnect d],
     match w_disconnect w (pre ++ [Run s d]) d, w_run w pre s d with
     | Err x, _ => Stop (Raise x)
     | Ok _, Err x => Stop (Raise x)
     | Ok _, Ok _ => Go tt
     end).
Proof.
  intros D w o s pre d H C S N A. rewrite (cli_go w o s H C S N). unfold pbind.
  assert (G : forall d b, use w o d b pre = (pre ++ [Run s d; Disconnect d],
     match w_disconnect w (pre ++ [Run s d]) d, w_run w pre s d with
     | Err x, _ => Stop (Raise x)
     | Ok _, Err x => Stop (Raise x)
     | Ok _, Ok _ => Go tt
     end)).
  { intros d0 b. rewrite (use_run w o s) by exact S. unfold outcome.
    now destruct (w_disconnect w _ d0), (w_run w pre s d0). }
  destruct A as [t cls c l T O C0 R | c d T DC W | a c d T E AL NE LG W | h c d l T E HO NE LG W R].
  - unfold make. rewrite T. apply older_iff in O.
    destruct C0 as (K1 & K2 & K3 & K4 & K5 & K6). destruct c as [x1 x2 x3 x4 x5 x6].
    cbn [c_host c_port c_creds c_hash c_timeout c_conn] in *. subst.
    destruct t; try (cbn in O; discriminate O); rewrite O; unfold pret;
    rewrite (refreshed_rest w o s _ _ _ _ S R); apply G.
  - apply described_config in DC.
    assert (M : make w o [] = ([Connect c], Go (Some (d, true, false)))).
    { unfold make. rewrite DC. unfold pbind, act.
      destruct T as [T | [T | (T & E & F)]]; rewrite T; try (rewrite W; reflexivity).
      destruct (String.eqb_spec (o_family o) ""); [contradiction|].
      destruct (o_enc o); [cbn [is_some negb andb]; rewrite W; reflexivity|contradiction]. }
    rewrite M. unfold rest. rewrite Bool.andb_false_r. apply G.
  - assert (M : make w o [] = ([ByAlias a (o_target o) c], Go (Some (d, true, false)))).
    { unfold make. rewrite T.
      assert (X : negb (String.eqb (o_family o) "") && is_some (o_enc o) = false).
      { destruct E as [E | E]; rewrite E; [apply Bool.andb_false_r|reflexivity]. }
      rewrite X, AL. unfold given_str. destruct (String.eqb_spec a ""); [contradiction|]. cbn [negb].
      rewrite (login_unique _ _ _ LG (account_is o)). unfold pbind, act. rewrite W. reflexivity. }
    rewrite M. unfold rest. rewrite Bool.andb_false_r. apply G.
  - assert (M : make w o [] = ([Single h (o_port o) c (o_timeout o) (o_discovery o)], Go (Some (d, false, true)))).
    { unfold make. rewrite T.
      assert (X : negb (String.eqb (o_family o) "") && is_some (o_enc o) = false).
      { destruct E as [E | E]; rewrite E; [apply Bool.andb_false_r|reflexivity]. }
      rewrite X.
      assert (Y : given_str (o_alias o) = false).
      { destruct (o_alias o) as [x|] eqn:A; [|reflexivity]. exfalso. apply C. right. split; [congruence|]. left. split; congruence. }
      rewrite Y. unfold discover, _discover, is_root. rewrite HO, S.
      destruct (String.eqb_spec h ""); [contradiction|]. destruct (String.eqb_spec s "discover"); [contradiction|].
      rewrite (login_unique _ _ _ LG (account_is o)). unfold pbind, act, pret. rewrite W. cbn [app].
      unfold pick. rewrite HO. cbn [find fst]. rewrite String.eqb_refl. reflexivity. }
    rewrite M. rewrite (refreshed_rest w o s _ _ _ _ S R). apply G.
Qed.
Print Assumptions command_runs.


(** No command runs before the device is made. *)
Definition no_run {D} (l : list (ev D)) : Prop := forall s d, ~ In (Run s d) l.
Definition quiet {D A} (m : list (ev D) -> list (ev D) * step A) : Prop := forall l, no_run l -> no_run (fst (m l)).
Lemma no_run_snoc {D} (l : list (ev D)) e : no_run l -> (forall s d, e <> Run s d) -> no_run (l ++ [e]).
Proof. intros N E s d I. apply in_app_or in I. destruct I as [I|[I|[]]]; [now apply N in I|now apply E in I]. Qed.
Lemma quiet_act {D A} e (r : list (ev D) -> res A) : (forall s d, e <> Run s d) -> quiet (act e r).
Proof. intros E l N. cbn. now apply no_run_snoc. Qed.
Lemma quiet_ret {D A} (a : A) : quiet (D:=D) (pret a).
Proof. intros l N. exact N. Qed.
Lemma quiet_stop {D A} f : quiet (D:=D) (A:=A) (pstop f).
Proof. intros l N. exact N. Qed.
Lemma quiet_bind {D A B} (m : P (D:=D) A) (f : A -> P B) : quiet m -> (forall a, quiet (f a)) -> quiet (pbind m f).
Proof.
  intros Q F l N. unfold pbind. specialize (Q l N). destruct (m l) as [l' [a|x]]; cbn in *; [now apply F|exact Q].
Qed.
Lemma quiet_print {D} (w : world D) d : quiet (print_discovered w d).
Proof.
  intros l N. unfold print_discovered. pose proof (quiet_act (Update d) (fun l => w_update w l d)) as Q.
  specialize (Q ltac:(discriminate) l N). unfold update. destruct (act _ _ l) as [l' [[]|x]]; cbn [fst] in *.
  - apply quiet_act; [discriminate|exact Q].
  - destruct x as [| | |[]]; exact Q.
Qed.
Lemma quiet_close {D} (w : world D) l : quiet (close_all w l).
Proof.
  induction l as [|[h d] l IH]; [apply quiet_ret|]. apply quiet_bind; [apply quiet_act; discriminate|auto].
Qed.
Lemma quiet_discover {D} (w : world D) o : quiet (discover w o).
Proof.
  apply quiet_bind.
  - unfold _discover. destruct (o_host o) as [h|]; [|apply quiet_act; discriminate].
    destruct (String.eqb h ""); [apply quiet_act; discriminate|].
    apply quiet_bind; [apply quiet_act; discriminate|]. intros [d|]; [|apply quiet_ret].
    apply quiet_bind; [|intros; apply quiet_ret]. destruct (is_root o); [apply quiet_print|apply quiet_ret].
  - intros f. apply quiet_bind; [|intros; apply quiet_ret]. destruct (is_root o); [apply quiet_close|apply quiet_ret].
Qed.
Lemma quiet_make {D} (w : world D) o : quiet (make w o).
Proof.
  unfold make.
  assert (Q : quiet match smart_config o with
    | None => pstop (Raise PyValueError)
    | Some c => pbind (act (Connect c) (fun l => w_connect w l c)) (fun d => pret (Some (d, true, false)))
    end).
  { destruct (smart_config o); [|apply quiet_stop]. apply quiet_bind; [apply quiet_act; discriminate|intros; apply quiet_ret]. }
  destruct (o_type o) as [t|].
  - destruct t; try exact Q; cbn; apply quiet_ret.
  - destruct (_ && _); [exact Q|]. destruct (given_str (o_alias o)).
    + destruct (o_alias o); [|apply quiet_ret]. apply quiet_bind; [apply quiet_act; discriminate|intros; apply quiet_ret].
    + apply quiet_bind; [apply quiet_discover|]. intros [|x f]; [apply quiet_stop|].
      apply quiet_bind; [|intros; apply quiet_ret]. unfold pick. destruct (o_host o); [|apply quiet_stop].
      destruct (find _ _) as [[]|]; [apply quiet_ret|apply quiet_stop].
Qed.

Lemma make_inv {D} (w : world D) o s l d u b :
  real_hosts w -> o_sub o = Some s -> s <> "discover" -> make w o [] = (l, Go (Some (d, u, b))) ->
  (u = true /\ approach w o s l d) \/ (u = false /\ forall l', refreshed w s d l l' -> approach w o s l' d).
Proof.
  intros RH S N. unfold make.
  assert (Q : forall ok, ok = true ->
    match smart_config o with
    | None => pstop (Raise PyValueError)
    | Some c => pbind (act (Connect c) (fun l => w_connect w l c)) (fun d => pret (Some (d, true, false)))
    end [] = (l, Go (Some (d, u, b))) ->
    (o_type o = Some TSmart \/ o_type o = Some TCamera \/ o_type o = None /\ o_enc o <> None /\ o_family o <> "") ->
    u = ok /\ approach w o s l d).
  { intros ok -> H T. destruct (smart_config o) as [c|] eqn:C; [|discriminate]. unfold pbind, act in H. cbn [app] in H.
    destruct (w_connect w [] c) as [d'|] eqn:W; [|discriminate]. injection H as <- <- <- <-.
    split; [reflexivity|]. apply by_options; auto. now apply described_config. }
  destruct (o_type o) as [t|] eqn:T.
  - destruct (legacy_class t) as [cls|] eqn:L.
    + assert (X : t <> TSmart /\ t <> TCamera) by (destruct t; split; intros E; try discriminate).
      destruct t; try (now destruct X); intros H; injection H as <- <- <- <-; right; (split; [reflexivity|]);
      intros l' R; (eapply by_type; [exact T|apply older_iff; exact L| |exact R]); repeat split; reflexivity.
    + destruct t; try discriminate; intros H; left; apply (Q true eq_refl H); auto.
  - destruct (negb (String.eqb (o_family o) "") && is_some (o_enc o)) eqn:X.
    + intros H. left. apply (Q true eq_refl H). right. right. split; [reflexivity|].
      apply andb_prop in X. destruct X as [X Y]. split; [destruct (o_enc o); [congruence|discriminate]|].
      destruct (String.eqb_spec (o_family o) ""); [discriminate|assumption].
    + assert (Z : o_enc o = None \/ o_family o = "").
      { destruct (String.eqb_spec (o_family o) ""); [auto|]. destruct (o_enc o); [discriminate|auto]. }
      destruct (given_str (o_alias o)) eqn:G.
      * destruct (o_alias o) as [a|] eqn:A; [|discriminate]. cbn in G. unfold pbind, act. cbn [app].
        destruct (w_alias w [] a) as [[d'|]|] eqn:W; try discriminate. intros H. injection H as <- <- <- <-.
        left. split; [reflexivity|]. apply by_name; auto; [|apply account_is].
        intros ->. discriminate.
      * unfold discover, _discover, is_root. rewrite S. destruct (String.eqb_spec s "discover"); [contradiction|].
        destruct (o_host o) as [h|] eqn:HO.
        -- destruct (String.eqb_spec h "").
           { unfold pbind, act, pret. destruct (w_broadcast w []) as [f|] eqn:W; [|discriminate].
             destruct f as [|x f]; [discriminate|]. unfold pick. rewrite HO.
             destruct (find _ _) as [[k dd]|] eqn:FF; [|discriminate].
             apply find_some in FF. destruct FF as [FI FE]. apply String.eqb_eq in FE. cbn in FE. subst.
             now apply (RH _ _ W) in FI. }
           unfold pbind, act, pret. destruct (w_single w [] h) as [[d'|]|] eqn:W; try discriminate.
           unfold pick. rewrite HO. cbn [find fst]. rewrite String.eqb_refl.
           intros H. injection H as <- <- <- <-. right. split; [reflexivity|]. intros l' R.
           eapply by_address; eauto. apply account_is.
        -- unfold pbind, act, pret. destruct (w_broadcast w []) as [f|]; [|discriminate].
           destruct f as [|x f]; [discriminate|]. unfold pick. rewrite HO. discriminate.
Qed.

Theorem command_only_as_asked : forall D (w : world D) o l r s d,
  real_hosts w -> cli w o [] = (l, r) -> In (Run s d) l ->
  o_sub o = Some s /\ ~ conflicting o /\ exists pre, approach w o s pre d /\ l = pre ++ [Run s d; Disconnect d].
Proof.
  intros D w o l r s d RH H I.
  assert (NC : ~ conflicting o).
  { intros C. destruct (o_help o) eqn:Hp.
    - unfold cli in H. rewrite Hp in H. injection H as <- _. destruct I.
    - destruct (contradictory_options_refused _ w _ Hp C) as [E|E]; rewrite E in H; injection H as <- _; destruct I. }
  assert (N0 : no_run (D:=D) []) by (intros ? ? []).
  destruct (cli_cases w o) as [[E _]|[[f E]|[(E & _)|(E & HH & S & _)]]]; rewrite E in H.
  - injection H as <- _. destruct I.
  - injection H as <- _. destruct I.
  - pose proof (quiet_bind (discover w o) (fun _ => pret tt) (quiet_discover w o) (fun _ => quiet_ret tt) [] N0) as Q.
    rewrite H in Q. now apply Q in I.
  - pose proof (quiet_make w o [] N0) as Q. unfold pbind in H. destruct (make w o []) as [l1 r1] eqn:M. cbn [fst] in Q.
    destruct r1 as [[[[d1 u] b]|]|x].
    2:{ exfalso. unfold rest in H. destruct (o_sub o); injection H as <- _; now apply Q in I. }
    2:{ injection H as <- _. now apply Q in I. }
    destruct (o_sub o) as [s1|] eqn:SO.
    + assert (s1 <> "discover") by congruence.
      destruct (make_inv w o s1 l1 d1 u b RH SO H0 M) as [[-> A]|[-> A]].
      * destruct (rest_ready w o s1 d1 b l1 l r d s SO H Q I) as (F1 & -> & ->). split; [reflexivity|]. split; [exact NC|]. eauto.
      * destruct (rest_refreshed w o s1 d1 b l1 l r d s SO H Q I) as (pre & F1 & F2 & -> & ->).
        split; [reflexivity|]. split; [exact NC|]. eauto.
    + exfalso. unfold rest in H. rewrite SO in H. unfold use in H. rewrite SO in H.
      assert (QQ : quiet (pbind (if negb false && negb u then update w d1 else pret tt)
           (fun _ l => let (l', r0) := (if b then pret tt else state w d1) l in
              let (l'', r') := disconnect w d1 l' in
              (l'', match r' with Go _ => r0 | Stop x => Stop x end)))).
      { apply quiet_bind; [destruct u; [apply quiet_ret|apply quiet_act; discriminate]|]. intros _ l0 N1.
        assert (X : no_run (fst ((if b then pret tt else state w d1) l0))).
        { destruct b; [apply quiet_ret, N1|apply quiet_act; [discriminate|exact N1]]. }
        destruct ((if b then pret tt else state w d1) l0) as [l2 r2]. cbn [fst] in X. cbn. now apply no_run_snoc. }
      specialize (QQ l1 Q). rewrite H in QQ. now apply QQ in I.
Qed.
Print Assumptions command_only_as_asked.

(** Every request goes where the options say, with the account they give. *)
Section Traffic.
Context {D : Type}.
Variable o : opts.
Definition keeps {A} (m : list (ev D) -> list (ev D) * step A) : Prop :=
  forall l, Forall (faithful o) l -> Forall (faithful o) (fst (m l)).
Lemma keeps_act {A} e (r : list (ev D) -> res A) : faithful o e -> keeps (act e r).
Proof. intros E l N. cbn. apply Forall_app. auto. Qed.
Lemma keeps_ret {A} (a : A) : keeps (pret a).
Proof. intros l N. exact N. Qed.
Lemma keeps_stop {A} f : keeps (A:=A) (pstop f).
Proof. intros l N. exact N. Qed.
Lemma keeps_bind {A B} (m : P (D:=D) A) (f : A -> P B) : keeps m -> (forall a, keeps (f a)) -> keeps (pbind m f).
Proof. intros Q F l N. unfold pbind. specialize (Q l N). destruct (m l) as [l' [a|x]]; cbn in *; [now apply F|exact Q]. Qed.
Lemma keeps_print (w : world D) d : keeps (print_discovered w d).
Proof.
  intros l N. unfold print_discovered. pose proof (keeps_act (Update d) (fun l => w_update w l d) I l N) as Q.
  unfold update. destruct (act _ _ l) as [l' [[]|x]]; cbn [fst] in *.
  - now apply keeps_act.
  - destruct x as [| | |[]]; exact Q.
Qed.
Lemma keeps_close (w : world D) l : keeps (close_all w l).
Proof. induction l as [|[h d] l IH]; [apply keeps_ret|]. apply keeps_bind; [now apply keeps_act|auto]. Qed.
Lemma keeps_discover (w : world D) : keeps (discover w o).
Proof.
  apply keeps_bind.
  - unfold _discover. destruct (o_host o) as [h|] eqn:H.
    + destruct (String.eqb_spec h "").
      * apply keeps_act. unfold faithful, absent. rewrite H. subst. repeat split; auto. apply account_is.
      * apply keeps_bind; [apply keeps_act; cbn; repeat split; auto; apply account_is|]. intros [d|]; [|apply keeps_ret].
        apply keeps_bind; [|intros; apply keeps_ret]. destruct (is_root o); [apply keeps_print|apply keeps_ret].
    + apply keeps_act. unfold faithful, absent. rewrite H. repeat split; auto. apply account_is.
  - intros f. apply keeps_bind; [|intros; apply keeps_ret]. destruct (is_root o); [apply keeps_close|apply keeps_ret].
Qed.
Lemma keeps_make (w : world D) : o_alias o = None \/ o_host o = None -> keeps (make w o).
Proof.
  intros X. unfold make.
  assert (Q : keeps match smart_config o with
    | None => pstop (Raise PyValueError)
    | Some c => pbind (act (Connect c) (fun l => w_connect w l c)) (fun d => pret (Some (d, true, false)))
    end).
  { destruct (smart_config o) eqn:S; [|apply keeps_stop]. apply keeps_bind; [|intros; apply keeps_ret].
    apply keeps_act. cbn. now apply described_config. }
  destruct (o_type o) as [t|].
  - destruct t; try exact Q; cbn; apply keeps_ret.
  - destruct (_ && _); [exact Q|]. destruct (given_str (o_alias o)).
    + destruct (o_alias o) as [a|] eqn:A; [|apply keeps_ret]. apply keeps_bind; [|intros; apply keeps_ret].
      apply keeps_act. cbn. destruct X as [X|X]; [discriminate|]. repeat split; auto. apply account_is.
    + apply keeps_bind; [apply keeps_discover|]. intros [|x f]; [apply keeps_stop|].
      apply keeps_bind; [|intros; apply keeps_ret]. unfold pick. destruct (o_host o); [|apply keeps_stop].
      destruct (find _ _) as [[]|]; [apply keeps_ret|apply keeps_stop].
Qed.
Lemma keeps_use (w : world D) d b : keeps (use w o d b).
Proof.
  intros l N. unfold use. destruct (o_sub o) as [s|] eqn:S; [|destruct b]; cbn; repeat (apply Forall_app; split);
  auto; constructor; cbn; auto.
Qed.
End Traffic.
Theorem only_asked_traffic : forall D (w : world D) o l r e,
  cli w o [] = (l, r) -> In e l -> faithful o e.
Proof.
  intros D w o l r e H I.
  enough (Q : keeps o (cli w o)).
  { specialize (Q [] (Forall_nil _)). rewrite H in Q. cbn [fst] in Q. rewrite Forall_forall in Q. now apply Q. }
  destruct (cli_cases w o) as [[E _]|[[f E]|[(E & _)|(E & HH & S & X & _)]]]; rewrite E.
  - apply keeps_ret.
  - apply keeps_stop.
  - apply keeps_bind; [apply keeps_discover|intros; apply keeps_ret].
  - apply keeps_bind; [now apply keeps_make|]. intros [[[d u] b]|]; cbn [rest].
    + apply keeps_bind; [|intros; apply keeps_use].
      destruct (negb _ && negb u); [now apply keeps_act|apply keeps_ret].
    + destruct (o_sub o); [apply keeps_stop|apply keeps_ret].
Qed.
Print Assumptions only_asked_traffic.

(** A device that was used is disconnected again when the tool ends normally. *)
Section Release.
Context {D : Type}.
Lemma released_nil : released (D:=D) [].
Proof. intros d e a b H. destruct a; discriminate. Qed.
Lemma released_cons (e : ev D) l : (forall d, touches d e -> In (Disconnect d) l) -> released l -> released (e :: l).
Proof.
  intros T R d e' a b H X. destruct a as [|x a]; cbn in H; injection H as -> H.
  - subst. now apply T.
  - eapply R; eauto.
Qed.
Definition calm (e : ev D) : Prop := forall d, ~ touches d e.
Lemma released_calm (e : ev D) l : calm e -> released l -> released (e :: l).
Proof. intros C. apply released_cons. intros d T. now apply C in T. Qed.
Lemma released_touch (d : D) (e : ev D) l : (forall d', touches d' e -> d' = d) -> In (Disconnect d) l -> released l -> released (e :: l).
Proof. intros C I. apply released_cons. intros d' T. now rewrite (C d' T). Qed.
Lemma touch_update (d d' : D) : touches d' (Update d) -> d' = d.
Proof. intros [E|[E|[s E]]]; congruence. Qed.
Lemma touch_state (d d' : D) : touches d' (State d) -> d' = d.
Proof. intros [E|[E|[s E]]]; congruence. Qed.
Lemma touch_run (d d' : D) s : touches d' (Run s d) -> d' = d.
Proof. intros [E|[E|[x E]]]; congruence. Qed.
Lemma calm_disconnect (d : D) : calm (Disconnect d).
Proof. intros d' [E|[E|[s E]]]; discriminate. Qed.
Ltac calm := intros ?d' [?E|[?E|[?s ?E]]]; discriminate.
Lemma released_discs (l : list (string * D)) : released (map (fun x => Disconnect (snd x)) l).
Proof. induction l; [apply released_nil|]. apply released_calm; [apply calm_disconnect|exact IHl]. Qed.
Lemma close_all_log (w : world D) found l l' r : close_all w found l = (l', Go r) ->
  l' = l ++ map (fun x => Disconnect (snd x)) found.
Proof.
  revert l. induction found as [|[h d] f IH]; intros l H.
  - injection H as <- _. now rewrite app_nil_r.
  - cbn [close_all] in H. unfold pbind, disconnect, act in H. destruct (w_disconnect w l d); [|discriminate].
    apply IH in H. rewrite H, <- app_assoc. reflexivity.
Qed.
Lemma print_log (w : world D) d l l' r : print_discovered w d l = (l', Go r) ->
  l' = l ++ [Update d] \/ l' = l ++ [Update d; State d].
Proof.
  unfold print_discovered, update, state, act. destruct (w_update w l d) as [|e].
  - destruct (w_state w _ d); [|discriminate]. intros H. injection H as <- _. rewrite <- app_assoc. auto.
  - destruct e; try discriminate; intros H; injection H as <- _; auto.
Qed.
Lemma released_app (a b : list (ev D)) : released a -> released b -> released (a ++ b).
Proof.
  intros A B. induction a as [|e a IH]; [exact B|]. cbn. apply released_cons.
  - intros d T. apply in_or_app. left. now apply (A d e [] a).
  - apply IH. intros d e' x y H. apply (A d e' (e :: x) y). now rewrite H.
Qed.
(** discover, called at the top or on behalf of a command *)
Lemma discover_log (w : world D) o l' f : discover w o [] = (l', Go f) -> released l'.
Proof.
  unfold discover, _discover.
  assert (B : pbind (act (Broadcast (o_target o) (o_port o) (account o) (o_timeout o) (o_discovery o)) (w_broadcast w))
     (fun found => pbind (if is_root o then close_all w found else pret tt) (fun _ => pret found)) [] = (l', Go f) -> released l').
  { unfold pbind at 1, act. cbn [app]. destruct (w_broadcast w []) as [g|]; [|discriminate].
    unfold pbind. destruct (is_root o).
    - destruct (close_all w g _) as [l2 [r|x]] eqn:C; [|discriminate]. intros H. injection H as <- <-.
      apply close_all_log in C. subst. apply released_calm; [calm|]. apply released_discs.
    - intros H. injection H as <- <-. apply released_calm; [calm|apply released_nil]. }
  destruct (o_host o) as [h|]; [|exact B]. destruct (String.eqb h ""); [exact B|]. clear B.
  unfold pbind, act, pret. cbn [app]. destruct (w_single w [] h) as [[d|]|]; [| |discriminate].
  - destruct (is_root o).
    + destruct (print_discovered w d _) as [l2 [r|x]] eqn:Pr; [|discriminate].
      destruct (close_all w _ l2) as [l3 [r3|x]] eqn:C; [|discriminate]. intros H. injection H as <- <-.
      apply close_all_log in C. apply print_log in Pr. subst. cbn [map snd].
      destruct Pr as [-> | ->]; cbn [app]; (apply released_calm; [calm|]).
      * apply (released_touch d); [apply touch_update|cbn; auto|]. apply released_calm; [calm|apply released_nil].
      * apply (released_touch d); [apply touch_update|cbn; auto|]. apply (released_touch d); [apply touch_state|cbn; auto|].
        apply released_calm; [calm|apply released_nil].
    + intros H. injection H as <- <-. apply released_calm; [calm|apply released_nil].
  - destruct (is_root o); intros H; injection H as <- <-; (apply released_calm; [calm|apply released_nil]).
Qed.
Lemma make_log (w : world D) o l' x : make w o [] = (l', Go x) -> released l'.
Proof.
  unfold make.
  assert (Q : match smart_config o with
    | None => pstop (Raise PyValueError)
    | Some c => pbind (act (Connect c) (fun l => w_connect w l c)) (fun d => pret (Some (d, true, false)))
    end [] = (l', Go x) -> released l').
  { destruct (smart_config o) as [c|]; [|discriminate]. unfold pbind, act. cbn [app].
    destruct (w_connect w [] c); [|discriminate]. intros H. injection H as <- <-. apply released_calm; [calm|apply released_nil]. }
  destruct (o_type o) as [t|].
  - destruct t; try exact Q; intros H; injection H as <- <-; apply released_nil.
  - destruct (_ && _); [exact Q|]. destruct (given_str (o_alias o)).
    + destruct (o_alias o) as [a|]; [|intros H; injection H as <- <-; apply released_nil].
      unfold pbind, act. cbn [app]. destruct (w_alias w [] a); [|discriminate]. intros H. injection H as <- <-.
      apply released_calm; [calm|apply released_nil].
    + unfold pbind at 1. destruct (discover w o []) as [l1 [f|y]] eqn:Di; [|discriminate]. apply discover_log in Di.
      destruct f as [|z f]; [discriminate|]. unfold pbind, pick. destruct (o_host o); [|discriminate].
      destruct (find _ _) as [[k d]|]; [|discriminate]. intros H. injection H as <- <-. exact Di.
Qed.
Lemma use_log (w : world D) o d b l l' r : use w o d b l = (l', r) ->
  exists x, l' = l ++ x ++ [Disconnect d] /\ (x = [] \/ x = [State d] \/ exists s, x = [Run s d]).
Proof.
  unfold use. destruct (o_sub o) as [s|].
  - cbn. intros H. injection H as <- _. exists [Run s d]. rewrite <- app_assoc. split; [reflexivity|]. eauto.
  - destruct b; cbn; intros H; injection H as <- _.
    + exists []. auto.
    + exists [State d]. rewrite <- app_assoc. auto.
Qed.
Lemma use_released (w : world D) o d b l l' r before : use w o d b l = (l', r) -> released before ->
  l = before \/ l = before ++ [Update d] -> released l'.
Proof.
  intros H R L. apply use_log in H. destruct H as (x & -> & X).
  assert (T : released [Disconnect d]) by (apply released_calm; [calm|apply released_nil]).
  assert (Y : released (x ++ [Disconnect d])).
  { destruct X as [-> | [-> | [s ->]]]; [exact T| |].
    - apply (released_touch d); [apply touch_state|cbn; auto|exact T].
    - apply (released_touch d); [intros ?; apply touch_run|cbn; auto|exact T]. }
  destruct L as [-> | ->]; [now apply released_app|].
  rewrite <- app_assoc. apply released_app; [exact R|]. cbn [app]. apply (released_touch d); [apply touch_update| |exact Y].
  apply in_or_app. right. cbn. auto.
Qed.
End Release.
Theorem normal_end_releases : forall D (w : world D) o l, cli w o [] = (l, Go tt) -> released l.
Proof.
  intros D w o l H.
  destruct (cli_cases w o) as [[E _]|[[f E]|[(E & _)|(E & _)]]]; rewrite E in H.
  - injection H as <-. apply released_nil.
  - discriminate.
  - unfold pbind in H. destruct (discover w o []) as [l1 [f|]] eqn:Di; [|discriminate]. injection H as <-.
    now apply discover_log in Di.
  - unfold pbind in H. destruct (make w o []) as [l1 [x|]] eqn:M; [|discriminate]. apply make_log in M.
    destruct x as [[[d u] b]|].
    + unfold rest in H. unfold pbind in H.
      destruct (negb _ && negb u).
      * unfold update, act in H. destruct (w_update w l1 d); [|discriminate].
        apply (use_released w o d b _ _ _ l1 H M). now right.
      * apply (use_released w o d b _ _ _ l1 H M). now left.
    + unfold rest in H. destruct (o_sub o); [discriminate|]. injection H as <-. exact M.
Qed.
Print Assumptions normal_end_releases.

(** A failing first update leaves the device connected. *)
Definition with_hash (o : opts) (h : option string) : opts :=
  mkOpts (o_help o) (o_sub o) (o_host o) (o_port o) (o_alias o) (o_target o) (o_type o) (o_enc o) (o_https o)
    (o_family o) (o_login o) (o_timeout o) (o_discovery o) (o_user o) (o_password o) h.
Definition with_port_timeout (o : opts) (p : option Z) (t : Z) : opts :=
  mkOpts (o_help o) (o_sub o) (o_host o) p (o_alias o) (o_target o) (o_type o) (o_enc o) (o_https o)
    (o_family o) (o_login o) t (o_discovery o) (o_user o) (o_password o) (o_hash o).

(** ** Nothing that failed is passed over in silence: when the tool ends normally everything it did
    succeeded, except that a device which refuses the login may be left out of what discover prints. *)
Definition succeeded {D} (w : world D) (o : opts) (before : list (ev D)) (e : ev D) : Prop :=
  match e with
  | Single h _ _ _ _ => exists d, w_single w before h = Ok d
  | Broadcast _ _ _ _ _ => exists l, w_broadcast w before = Ok l
  | ByAlias a _ _ => exists d, w_alias w before a = Ok d
  | Connect c => exists d, w_connect w before c = Ok d
  | Update d => w_update w before d = Ok tt \/
      ((o_sub o = None \/ o_sub o = Some "discover") /\ exists c, w_update w before d = Err (KAuth c))
  | State d => w_state w before d = Ok tt
  | Run s d => w_run w before s d = Ok tt
  | Disconnect d => w_disconnect w before d = Ok tt
  end.
Section Silent.
Context {D : Type}.
Variable w : world D.
Variable o : opts.
Definition open {A} (m : P (D:=D) A) : Prop := forall l l' a, m l = (l', Go a) ->
  exists new, l' = l ++ new /\ forall pre e post, new = pre ++ e :: post -> succeeded w o (l ++ pre) e.
Lemma open_ret {A} (a : A) : open (pret a).
Proof. intros l l' x H. injection H as <- _. exists []. split; [now rewrite app_nil_r|]. intros [|? ?] e1 post X; discriminate X. Qed.
Lemma open_stop {A} f : open (@pstop D A f).
Proof. intros l l' x H. discriminate. Qed.
Lemma cons_one {A} (x : A) pre e post : [x] = pre ++ e :: post -> pre = [] /\ e = x /\ post = [].
Proof. destruct pre as [|y [|z pre]]; cbn; intros H; [injection H as H1 H2; auto|discriminate H|discriminate H]. Qed.
Lemma open_act {A} e (r : list (ev D) -> res A) : (forall l a, r l = Ok a -> succeeded w o l e) -> open (act e r).
Proof.
  intros S l l' a H. unfold act in H. destruct (r l) as [x|x] eqn:E; [|discriminate H]. injection H as <- _. exists [e]. split; [reflexivity|].
  intros pre e' post X. destruct (cons_one _ _ _ _ X) as (-> & -> & ->). rewrite app_nil_r. exact (S _ _ E).
Qed.
Lemma open_bind {A B} (m : P (D:=D) A) (f : A -> P B) : open m -> (forall a, open (f a)) -> open (pbind m f).
Proof.
  intros M F l l' b H. unfold pbind in H. destruct (m l) as [l1 [a|x]] eqn:E; [|discriminate H].
  destruct (M _ _ _ E) as (n1 & -> & G1). destruct (F _ _ _ _ H) as (n2 & -> & G2). exists (n1 ++ n2). split; [now rewrite app_assoc|].
  intros pre e post X. assert (Y : (exists q, n1 = pre ++ e :: q) \/ exists q, pre = n1 ++ q /\ n2 = q ++ e :: post).
  { clear - X. revert pre X. induction n1 as [|y n1 IH]; intros pre X; [right; exists pre; now split|]. destruct pre as [|z pre]; cbn in X; injection X as -> X.
    - left. now exists n1.
    - destruct (IH _ X) as [(q & ->)|(q & -> & Z)]; [left; now exists q|right; exists q; now split]. }
  destruct Y as [(q & Y)|(q & -> & Y)]; [exact (G1 _ _ _ Y)|]. rewrite app_assoc. exact (G2 _ _ _ Y).
Qed.
Lemma open_update d : open (update w d).
Proof. apply open_act. intros l [] H. now left. Qed.
Lemma open_state d : open (state w d).
Proof. apply open_act. intros l [] H. exact H. Qed.
Lemma open_disconnect d : open (disconnect w d).
Proof. apply open_act. intros l [] H. exact H. Qed.
Lemma open_print d : (o_sub o = None \/ o_sub o = Some "discover") -> open (print_discovered w d).
Proof.
  intros R l l' a H. unfold print_discovered, update, act in H. destruct (w_update w l d) as [[]|x] eqn:E.
  - refine (open_bind (update w d) (fun _ => state w d) (open_update d) (fun _ => open_state d) l l' a _).
    unfold pbind, update, act. now rewrite E.
  - destruct x; try discriminate H. injection H as <- _. exists [Update d]. split; [reflexivity|].
    intros pre e post X. destruct (cons_one _ _ _ _ X) as (-> & -> & ->). rewrite app_nil_r. right. eauto.
Qed.
Lemma open_close l : open (close_all w l).
Proof. induction l as [|[h d] l IH]; [apply open_ret|]. apply open_bind; [apply open_disconnect|auto]. Qed.
Lemma open_discover : open (discover w o).
Proof.
  assert (B : open (act (Broadcast (o_target o) (o_port o) (account o) (o_timeout o) (o_discovery o)) (w_broadcast w))) by (apply open_act; cbn; eauto).
  apply open_bind.
  - unfold _discover. destruct (o_host o) as [h|]; [|exact B]. destruct (String.eqb h ""); [exact B|].
    apply open_bind; [apply open_act; cbn; eauto|]. intros [d|]; [|apply open_ret]. apply open_bind; [|intros; apply open_ret].
    destruct (is_root o) eqn:R; [|apply open_ret]. apply open_print. unfold is_root in R. destruct (o_sub o) as [s|]; [right|now left].
    apply String.eqb_eq in R. now rewrite R.
  - intros f. apply open_bind; [|intros; apply open_ret]. destruct (is_root o); [apply open_close|apply open_ret].
Qed.
Lemma open_make : open (make w o).
Proof.
  unfold make.
  assert (Q : open match smart_config o with
    | None => pstop (Raise PyValueError)
    | Some c => pbind (act (Connect c) (fun l => w_connect w l c)) (fun d => pret (Some (d, true, false)))
    end).
  { destruct (smart_config o) eqn:S; [|apply open_stop]. apply open_bind; [|intros; apply open_ret]. apply open_act. cbn. eauto. }
  destruct (o_type o) as [t|].
  - destruct t; try exact Q; cbn; apply open_ret.
  - destruct (_ && _); [exact Q|]. destruct (given_str (o_alias o)).
    + destruct (o_alias o) as [a|] eqn:A; [|apply open_ret]. apply open_bind; [|intros; apply open_ret]. apply open_act. cbn. eauto.
    + apply open_bind; [apply open_discover|]. intros [|x f]; [apply open_stop|].
      apply open_bind; [|intros; apply open_ret]. unfold pick. destruct (o_host o); [|apply open_stop].
      destruct (find _ _) as [[]|]; [apply open_ret|apply open_stop].
Qed.
Lemma open_use d b : open (use w o d b).
Proof.
  set (body := match o_sub o with None => if b then pret tt else state w d | Some s => act (Run s d) (fun l => w_run w l s d) end).
  assert (B : open body).
  { unfold body. destruct (o_sub o) as [s|]; [apply open_act; intros l [] H; exact H|]. destruct b; [apply open_ret|apply open_state]. }
  intros l l' a H. apply (open_bind body (fun _ => disconnect w d) B (fun _ => open_disconnect d) l l' tt).
  unfold use in H. fold body in H. unfold pbind. destruct (body l) as [l1 [x|x]].
  - destruct (disconnect w d l1) as [l2 [[]|y]]; [|discriminate H]. now injection H as <- _.
  - destruct (disconnect w d l1) as [l2 [[]|y]]; discriminate H.
Qed.
End Silent.
Theorem normal_end_no_failure : forall D (w : world D) o l, cli w o [] = (l, Go tt) ->
  forall before e after, l = before ++ e :: after -> succeeded w o before e.
Proof.
  intros D w o l H before e after X.
  assert (O : open w o (cli w o)).
  { destruct (cli_cases w o) as [[E _]|[[f E]|[(E & _)|(E & _)]]]; rewrite E.
    - apply open_ret.
    - apply open_stop.
    - apply open_bind; [apply open_discover|intros; apply open_ret].
    - apply open_bind; [apply open_make|]. intros [[[d u] b]|]; cbn [rest].
      + apply open_bind; [|intros; apply open_use]. destruct (negb _ && negb u); [apply open_update|apply open_ret].
      + destruct (o_sub o); [apply open_stop|apply open_ret]. }
  destruct (O _ _ _ H) as (new & E & G). cbn [List.app] in E. subst new. exact (G _ _ _ X).
Qed.
Print Assumptions normal_end_no_failure.

Theorem failed_update_refuted : forall D (w : world D) o s h d e,
  o_help o = false -> ~ conflicting o -> o_sub o = Some s -> s <> "discover" -> ~ raw s ->
  o_type o = None -> o_enc o = None -> o_host o = Some h -> h <> "" ->
  w_single w [] h = Ok (Some d) -> (forall l, w_update w l d = Err e) ->
  exists l, cli w o [] = (l, Stop (Raise e)) /\ ~ released l.
Proof.
  intros D w o s h d e H C S N R T E HO NE W U. rewrite (cli_go w o s H C S N). unfold pbind at 1.
  assert (M : make w o [] = ([Single h (o_port o) (account o) (o_timeout o) (o_discovery o)], Go (Some (d, false, true)))).
  { unfold make. rewrite T, E, Bool.andb_false_r.
    assert (Y : given_str (o_alias o) = false).
    { destruct (o_alias o) as [x|] eqn:A; [|reflexivity]. exfalso. apply C. right. split; [congruence|]. left. split; congruence. }
    rewrite Y. unfold discover, _discover, is_root. rewrite HO, S.
    destruct (String.eqb_spec h ""); [contradiction|]. destruct (String.eqb_spec s "discover"); [contradiction|].
    unfold pbind, act, pret. rewrite W. cbn [app].
    unfold pick. rewrite HO. cbn [find fst]. rewrite String.eqb_refl. reflexivity. }
  rewrite M. unfold rest. rewrite S. destruct (existsb _ _) eqn:X; [apply raw_iff in X; contradiction|].
  cbn [negb andb]. unfold pbind, update, act. rewrite U. eexists. split; [reflexivity|].
  intros Rl. apply (Rl d (Update d) [Single h (o_port o) (account o) (o_timeout o) (o_discovery o)] []); [reflexivity|].
  left. reflexivity.
Qed.
Print Assumptions failed_update_refuted.

(** A stored credentials hash makes no difference when the device is discovered. *)
Theorem hash_unused_refuted : forall D (w : world D) o h l,
  o_type o = None -> o_enc o = None -> cli w (with_hash o h) l = cli w o l.
Proof. intros D w [] h l T E. cbn in T, E. subst. unfold cli, make. cbn. rewrite !Bool.andb_false_r. reflexivity. Qed.
Print Assumptions hash_unused_refuted.

(** Neither do the port and the timeout when it is looked up by name. *)
Theorem alias_ignores_port_refuted : forall D (w : world D) o p t l,
  o_type o = None -> o_enc o = None -> o_host o = None -> ~ absent (o_alias o) -> o_sub o <> Some "discover" ->
  cli w (with_port_timeout o p t) l = cli w o l.
Proof.
  intros D w [hp sub ho po al ta ti en ht fa lo to di us pw ha] p t l T E H A S. cbn in T, E, H, A, S. subst. apply given_str_true in A.
  unfold cli, make. cbn. rewrite !Bool.andb_false_r, A.
  destruct sub as [s|]; [destruct (String.eqb_spec s "discover"); [subst; contradiction|]|];
  destruct al; try discriminate; reflexivity.
Qed.
Print Assumptions alias_ignores_port_refuted.

(** With a device type the name is ignored: the tool connects to no host at all. *)
Theorem alias_with_type_refuted : forall D (w : world D) o a f,
  o_help o = false -> ~ conflicting o -> o_sub o <> Some "discover" ->
  o_alias o = Some a -> o_type o = Some TSmart -> family_value f = o_family o ->
  exists c l r, cli w o [] = (Connect c :: l, r) /\ c_host c = None.
Proof.
  intros D w o a f H C S A T F. 
  assert (HN : o_host o = None).
  { destruct (o_host o) eqn:X; [|reflexivity]. exfalso. apply C. right. split; [exact S|]. left. split; congruence. }
  apply family_of_some in F.
  assert (Z : exists c, smart_config o = Some c /\ c_host c = None).
  { unfold smart_config. rewrite T. cbv beta iota zeta. rewrite F. eexists. split; [reflexivity|]. cbn. exact HN. }
  destruct Z as (c & Z & HC).
  assert (E : cli w o = pbind (make w o) (rest w o)).
  { unfold cli. rewrite H. rewrite HN, A. cbn [given_str is_some negb andb]. rewrite Bool.andb_false_r.
    destruct (match o_sub o with Some s => String.eqb s "discover" | None => false end) eqn:X.
    { destruct (o_sub o); [|discriminate]. apply String.eqb_eq in X. subst. contradiction. }
    destruct (xorb _ _) eqn:Y; [|reflexivity]. exfalso. apply C. right. split; [exact S|]. right.
    destruct (given_str (o_password o)) eqn:G1, (given_str (o_user o)) eqn:G2; try discriminate.
    - apply given_str_true in G1. apply given_str_false in G2. auto.
    - apply given_str_false in G1. apply given_str_true in G2. auto. }
  rewrite E. unfold pbind, make. rewrite T, Z. unfold pbind, act. cbn [app].
  assert (K : forall d l r, use w o d false [Connect c] = (l, r) -> exists l', l = Connect c :: l').
  { intros d l r U. apply use_log in U. destruct U as (x & -> & _). eexists. reflexivity. }
  destruct (w_connect w [] c) as [d|]; [|eauto 8].
  unfold rest, pbind, pret. cbn [negb]. rewrite Bool.andb_false_r. destruct (use w o d false [Connect c]) as [l r] eqn:U.
  destruct (K _ _ _ U) as [l' ->]. eauto.
Qed.
Print Assumptions alias_with_type_refuted.

(** The discover command drops half an account without a word. *)
Theorem half_account_refuted : forall D (w : world D) o h u,
  o_help o = false -> o_sub o = Some "discover" -> o_host o = Some h -> h <> "" -> o_target o = "255.255.255.255" ->
  o_user o = Some u -> u <> "" -> o_password o = None ->
  exists l r, cli w o [] = (Single h (o_port o) None (o_timeout o) (o_discovery o) :: l, r).
Proof.
  intros D w o h u H S HO NE TG U UE PW.
  assert (E : cli w o = pbind (discover w o) (fun _ => pret tt)) by (unfold cli; rewrite H, TG, S; reflexivity).
  rewrite E.
  assert (RT : is_root o = true) by (unfold is_root; now rewrite S).
  unfold pbind at 1, discover, _discover. rewrite RT, HO. destruct (String.eqb_spec h ""); [contradiction|].
  unfold account. rewrite PW, U.
  unfold pbind, act, pret. cbn [app]. destruct (w_single w [] h) as [[d|]|]; [| |eauto].
  - destruct (print_discovered w d _) as [l2 [r|x]] eqn:Pr.
    + apply print_log in Pr. cbn [close_all]. unfold pbind, disconnect, act, pret.
      destruct Pr as [-> | ->]; cbn [app]; destruct (w_disconnect w _ d); eauto.
    + unfold print_discovered, update, state, act in Pr. destruct (w_update w _ d) as [|e].
      * injection Pr as <- _. cbn [app]. eauto.
      * destruct e; injection Pr as <- _; cbn [app]; eauto.
  - cbn. eauto.
Qed.
Print Assumptions half_account_refuted.

(** A name nobody answers to is no error when no command is given. *)
Theorem unknown_name_refuted : forall D (w : world D) o a,
  o_help o = false -> ~ conflicting o -> o_sub o = None -> o_type o = None -> o_enc o = None ->
  o_alias o = Some a -> a <> "" -> w_alias w [] a = Ok None ->
  exists l, cli w o [] = (l, Go tt).
Proof.
  intros D w o a H C S T E A NE W.
  assert (HN : o_host o = None).
  { destruct (o_host o) eqn:X; [|reflexivity]. exfalso. apply C. right. split; [congruence|]. left. split; congruence. }
  unfold cli. rewrite H, HN, S, A. cbn [given_str is_some negb andb]. rewrite Bool.andb_false_r.
  destruct (xorb _ _) eqn:Y.
  { exfalso. apply C. right. split; [congruence|]. right.
    destruct (given_str (o_password o)) eqn:G1, (given_str (o_user o)) eqn:G2; try discriminate.
    - apply given_str_true in G1. apply given_str_false in G2. auto.
    - apply given_str_false in G1. apply given_str_true in G2. auto. }
  unfold pbind, make. rewrite T, E, A, Bool.andb_false_r. cbn [given_str].
  destruct (String.eqb_spec a ""); [contradiction|]. cbn [negb]. unfold pbind, act. rewrite W. eexists. reflexivity.
Qed.
Print Assumptions unknown_name_refuted.

(** ** C124: the options that discover config prints lead to the same connection *)
Definition settled_params (acc : list (key * params)) : Prop :=
  Forall (fun kp => login_version (snd kp) = Some 2 /\ http_port (snd kp) = None) acc.
Lemma kset_all {A} (Q : key * A -> Prop) k v (l : list (key * A)) :
  (forall k', Q (k', v)) -> Forall Q l -> Forall Q (kset k v l).
Proof.
  intros V. induction 1 as [|[k' v'] l H T IH]; cbn; [constructor; auto|].
  destruct (key_eqb k k'); constructor; auto.
Qed.
Lemma key_eqb_refl k : key_eqb k k = true.
Proof. destruct k as [[] [] [] []]; reflexivity. Qed.
Lemma kset_twice {A} k (v v' : A) l : kset k v' (kset k v l) = kset k v' l.
Proof.
  induction l as [|[k0 v0] l IH]; cbn.
  - now rewrite key_eqb_refl.
  - destruct (key_eqb k k0) eqn:E; cbn; rewrite E; [reflexivity|]. now rewrite IH.
Qed.
Lemma pair_settled acc f e h : settled_params acc ->
  settled_params (add_candidate (add_candidate acc (mkParams f e None h None)) (mkParams f e (Some 2) h None)).
Proof.
  intros S. unfold add_candidate.
  assert (X : get_protocol (mkParams f e None h None) true = get_protocol (mkParams f e (Some 2) h None) true) by reflexivity.
  rewrite X. destruct (get_protocol _ true) as [[pr tr]|]; [|exact S]. cbn [family_ https].
  destruct (class_from_family _ h true); [|exact S]. rewrite kset_twice. apply kset_all; [|exact S]. auto.
Qed.
Lemma fold_pairs (l : list (encryption * family * bool)) : forall acc, settled_params acc ->
  settled_params (fold_left add_candidate
    (flat_map (fun x => [mkParams (snd (fst x)) (fst (fst x)) None (snd x) None; mkParams (snd (fst x)) (fst (fst x)) (Some 2) (snd x) None]) l) acc).
Proof.
  induction l as [|[[e f] h] l IH]; intros acc S; [exact S|]. cbn [flat_map fold_left app]. apply IH. now apply pair_settled.
Qed.
Lemma flat_map_flat_map {A B C} (f : A -> list B) (g : B -> list C) l :
  flat_map g (flat_map f l) = flat_map (fun a => flat_map g (f a)) l.
Proof. induction l as [|a l IH]; [reflexivity|]. cbn. now rewrite flat_map_app, IH. Qed.
Lemma candidates_settled families : settled_params (candidates families).
Proof.
  unfold candidates.
  assert (E : all_params families = flat_map
    (fun x => [mkParams (snd (fst x)) (fst (fst x)) None (snd x) None; mkParams (snd (fst x)) (fst (fst x)) (Some 2) (snd x) None])
    (flat_map (fun e => flat_map (fun f => map (fun h => (e, f, h)) [true; false]) families) all_enc)).
  { unfold all_params. rewrite flat_map_flat_map. apply flat_map_ext. intros e. rewrite flat_map_flat_map.
    apply flat_map_ext. intros f. reflexivity. }
  rewrite E. apply fold_pairs. constructor.
Qed.
Lemma tried_candidate (w : key -> Factory_Model.world) c0 cands : forall trace t d,
  try_candidates w c0 cands trace = (t, Ok (Some d)) ->
  exists k p before ops, In (k, p) cands /\ t = before ++ [mkAttempt k ops (Some true)].
Proof.
  induction cands as [|[k p] cands IH]; intros trace t d H; cbn [try_candidates] in H; [discriminate|]; cbv zeta in H.
  destruct (connect_with _ _ _ _) as [ops r] eqn:C. destruct r as [dv|e].
  - destruct (w_close (w k)); [|discriminate]. injection H as <- <-. exists k, p, trace, (ops ++ [OClose]). split; [left|]; reflexivity.
  - destruct (w_close (w k)); [|discriminate]. destruct (is_exception e); [|discriminate].
    destruct (IH _ _ _ H) as (k' & p' & b & o & I & E). exists k', p', b, o. split; [right|]; auto.
Qed.

Theorem printed_options_reconnect : forall (w : key -> Factory_Model.world) families c0 trace d,
  try_connect_all w families c0 = (trace, Ok (Some d)) ->
  exists k p before ops,
    In (k, p) (candidates families) /\ trace = before ++ [mkAttempt k ops (Some true)] /\
    forall D (net : world D) o, typed_in (printed_options p) c0 o ->
      exists c l r, cli net o [] = (Connect c :: l, r)
        /\ c_host c = Some (host c0) /\ c_port c = port_override c0 /\ Some (c_timeout c) = timeout c0
        /\ c_creds c = creds c0 /\ c_conn c = p.
Proof.
  intros w families c0 trace d H. destruct (tried_candidate _ _ _ _ _ _ H) as (k & p & b & ops & I & E).
  exists k, p, b, ops. split; [exact I|]. split; [exact E|].
  intros D net o (O1 & O2 & O3 & O4 & O5 & O6 & O7 & O8 & O9 & O10 & O11 & O12 & (e & O13 & O13') & O14 & O15).
  pose proof (candidates_settled families) as S. unfold settled_params in S. rewrite Forall_forall in S. specialize (S _ I). cbn in S.
  destruct S as [S1 S2]. destruct p as [f pe lv ht hp]. cbn in S1, S2, O12, O13', O14. subst lv hp.
  assert (e = pe) by (destruct e, pe; try reflexivity; vm_compute in O13'; discriminate). subst e.
  assert (G : cli net o = pbind (make net o) (rest net o)).
  { unfold cli. rewrite O1, O6, O3, O5. change (String.eqb "255.255.255.255" DEFAULT_TARGET) with true.
    cbn [negb andb is_some].
    destruct (match o_sub o with Some s => String.eqb s "discover" | None => false end) eqn:X.
    { destruct (o_sub o); [|discriminate]. apply String.eqb_eq in X. subst. contradiction. }
    destruct (xorb _ _) eqn:Y; [|reflexivity]. exfalso.
    destruct (given_str (o_password o)) eqn:G1, (given_str (o_user o)) eqn:G2; try discriminate.
    - apply given_str_true in G1. apply given_str_false in G2. tauto.
    - apply given_str_false in G1. apply given_str_true in G2. tauto. }
  assert (FO : family_of (JStr (o_family o)) = Some f) by (apply family_of_some; congruence).
  assert (Z : smart_config o = Some (mkConfig (o_host o) (o_port o) (account o) (o_hash o) (o_timeout o) (mkParams f pe (Some 2) (o_https o) None))).
  { unfold smart_config. rewrite O2. cbv beta iota zeta. rewrite FO, O13, O15. reflexivity. }
  rewrite G. unfold pbind, make. rewrite O2, O13, Z.
  assert (NF : String.eqb (o_family o) "" = false) by (rewrite O12; destruct f; reflexivity).
  rewrite NF. cbn [negb andb is_some]. set (c := mkConfig _ _ _ _ _ _) in *.
  assert (R : c_host c = Some (host c0) /\ c_port c = port_override c0 /\ Some (c_timeout c) = timeout c0
        /\ c_creds c = creds c0 /\ c_conn c = mkParams f pe (Some 2) ht None).
  { subst c. cbn. rewrite O14. repeat split; auto. apply (login_unique o); [apply account_is|exact O9]. }
  unfold pbind, act. cbn [app].
  destruct (w_connect net [] c) as [dd|]; [|eauto 10].
  unfold rest, pbind, pret. cbn [negb]. rewrite Bool.andb_false_r. destruct (use net o dd false [Connect c]) as [l r] eqn:U.
  apply use_log in U. destruct U as (x & -> & _). cbn [app]. exists c. eexists _, _. split; [reflexivity|exact R].
Qed.
Print Assumptions printed_options_reconnect.

(** ** C125: finding a device by its name *)
Lemma same_name_iff a b : same_name a b = true <-> lower a = lower b.
Proof. apply String.eqb_eq. Qed.
Lemma on_discovered_sound {D} alias (l : list (answer D)) : forall seen s d,
  on_discovered alias seen l = (s, Some d) -> exists a, In a l /\ n_dev a = d /\ named alias a.
Proof.
  induction l as [|a l IH]; intros seen s d H; cbn in H; [discriminate|].
  assert (K : forall seen', on_discovered alias seen' l = (s, Some d) -> exists a', In a' (a :: l) /\ n_dev a' = d /\ named alias a').
  { intros seen' X. destruct (IH _ _ _ X) as (a' & I & E). exists a'. split; [now right|exact E]. }
  destruct (existsb _ seen); [now apply K in H|].
  destruct (n_update a) as [[]|] eqn:U; [|now apply K in H].
  destruct (n_alias a) as [n|] eqn:N; [|now apply K in H].
  destruct (String.eqb_spec n ""); cbn [negb andb] in H; [now apply K in H|].
  destruct (same_name n alias) eqn:X; [|now apply K in H].
  injection H as <- <-. exists a. split; [now left|]. split; [reflexivity|]. split; [exact U|]. exists n.
  split; [exact N|]. split; [assumption|]. now apply same_name_iff.
Qed.
(** The device returned answers to the name. *)
Theorem found_has_name : forall D (net : nat -> list (answer D) * res unit) alias attempts d,
  find_dev_from_alias alias attempts net = Found d ->
  exists i a, (i < attempts - 1)%nat /\ In a (fst (net i)) /\ n_dev a = d /\ named alias a.
Proof.
  intros D net alias attempts d. unfold find_dev_from_alias.
  assert (G : forall n i seen, do_discover alias net i n seen = Found d ->
    exists j a, (i <= j < i + n)%nat /\ In a (fst (net j)) /\ n_dev a = d /\ named alias a).
  { induction n as [|n IH]; intros i seen H; cbn in H; [discriminate|].
    destruct (on_discovered alias seen (fst (net i))) as [s [d'|]] eqn:O.
    - injection H as ->. apply on_discovered_sound in O. destruct O as (a & O). exists i, a. split; [lia|exact O].
    - destruct (snd (net i)) as [u0|]; [|discriminate]. apply IH in H. destruct H as (j & a & J & H). exists j, a. split; [lia|exact H]. }
  intros H. apply G in H. destruct H as (i & a & J & H). exists i, a. split; [lia|exact H].
Qed.
Print Assumptions found_has_name.

(** A device that answers in one of the rounds, first of its host, is found unless another one with that
    name is, provided that no round fails. *)
Definition hosts_of {D} (l : list (answer D)) : list string := map n_host l.
Definition first_of_host {D} (net : nat -> list (answer D) * res unit) (i : nat) (before : list (answer D)) (a : answer D) : Prop :=
  ~ In (n_host a) (hosts_of before) /\ forall j, (j < i)%nat -> ~ In (n_host a) (hosts_of (fst (net j))).
Lemma on_discovered_seen {D} alias (l : list (answer D)) : forall seen s h,
  on_discovered alias seen l = (s, None) -> In h s -> In h seen \/ In h (hosts_of l).
Proof.
  induction l as [|a l IH]; intros seen s h H I; cbn in H.
  - injection H as <-. auto.
  - assert (K : forall seen', on_discovered alias seen' l = (s, None) -> (forall x, In x seen' -> In x seen \/ x = n_host a) ->
       In h seen \/ In h (hosts_of (a :: l))).
    { intros seen' X Y. destruct (IH _ _ _ X I) as [Z|Z]; [|right; right; exact Z].
      destruct (Y _ Z) as [Q|Q]; [auto|right; left; auto]. }
    destruct (existsb _ seen); [apply (K _ H); auto|].
    assert (Y : forall x, In x (n_host a :: seen) -> In x seen \/ x = n_host a) by (intros x [->|Q]; auto).
    destruct (n_update a); [|apply (K _ H Y)]. destruct (n_alias a); [|apply (K _ H Y)].
    destruct (negb _ && _); [discriminate|apply (K _ H Y)].
Qed.
Lemma on_discovered_hit {D} alias (before : list (answer D)) a after : forall seen,
  ~ In (n_host a) seen -> ~ In (n_host a) (hosts_of before) -> named alias a ->
  exists s d, on_discovered alias seen (before ++ a :: after) = (s, Some d).
Proof.
  induction before as [|b l IH]; intros seen N M Na.
  - cbn. destruct (existsb _ seen) eqn:E.
    { apply existsb_exists in E. destruct E as (x & I & E). apply String.eqb_eq in E. subst. contradiction. }
    destruct Na as (U & n & A & NE & L). rewrite U, A. destruct (String.eqb_spec n ""); [contradiction|]. cbn [negb andb].
    apply same_name_iff in L. rewrite L. eauto.
  - cbn. assert (M2 : ~ In (n_host a) (hosts_of l)) by (intros I; apply M; now right).
    assert (N2 : ~ In (n_host a) (n_host b :: seen)) by (intros [I|I]; [apply M; left; exact I|contradiction]).
    destruct (existsb _ seen); [now apply IH|].
    destruct (n_update b); [|now apply IH]. destruct (n_alias b); [|now apply IH].
    destruct (negb _ && _); [eauto|now apply IH].
Qed.
Theorem named_device_found_partial : forall D (net : nat -> list (answer D) * res unit) alias attempts i before a after,
  (i < attempts - 1)%nat -> fst (net i) = before ++ a :: after -> named alias a -> first_of_host net i before a ->
  (forall j, (j < i)%nat -> snd (net j) = Ok tt) ->
  exists d, find_dev_from_alias alias attempts net = Found d.
Proof.
  intros D net alias attempts i before a after I E N [F1 F2] R. unfold find_dev_from_alias.
  assert (G : forall n k seen, (k <= i < k + n)%nat ->
    (forall h, In h seen -> exists j, (j < k)%nat /\ In h (hosts_of (fst (net j)))) ->
    exists d, do_discover alias net k n seen = Found d).
  { induction n as [|n IH]; intros k seen K S; [lia|]. cbn.
    destruct (Nat.eq_dec k i) as [->|NE].
    - rewrite E. destruct (on_discovered_hit alias before a after seen) as (s & d & H); auto.
      { intros Q. destruct (S _ Q) as (j & J & Q'). now apply (F2 j). }
      rewrite H. eauto.
    - destruct (on_discovered alias seen (fst (net k))) as [s [d|]] eqn:O; [eauto|].
      rewrite (R k) by lia. apply IH; [lia|]. intros h Q. destruct (on_discovered_seen _ _ _ _ _ O Q) as [Z|Z].
      + destruct (S _ Z) as (j & J & Q'). exists j. split; [lia|exact Q'].
      + exists k. split; [lia|exact Z]. }
  apply G; [lia|]. intros h [].
Qed.
Print Assumptions named_device_found_partial.

(** If a round fails the caller waits for ever. *)
Theorem failed_discovery_refuted : forall D (net : nat -> list (answer D) * res unit) alias attempts e,
  (2 <= attempts)%nat -> net 0%nat = ([], Err e) -> find_dev_from_alias alias attempts net = Waits.
Proof.
  intros D net alias attempts e A E. unfold find_dev_from_alias. destruct attempts as [|[|n]]; [lia|lia|].
  cbn. rewrite E. reflexivity.
Qed.
Print Assumptions failed_discovery_refuted.
(** A device whose first update failed is not asked again in the next round. *)
Theorem no_second_chance_refuted : forall D (net : nat -> list (answer D) * res unit) alias attempts a b e,
  n_host a = n_host b -> n_update a = Err e -> named alias b ->
  (forall i, net i = ([if Nat.eqb i 0 then a else b], Ok tt)) ->
  find_dev_from_alias alias attempts net = Missing.
Proof.
  intros D net alias attempts a b e H U N E. unfold find_dev_from_alias.
  assert (G : forall n i, (0 < i)%nat -> do_discover alias net i n [n_host a] = Missing).
  { induction n as [|n IH]; intros i I; [reflexivity|]. cbn. rewrite (E i). destruct i; [lia|]. cbn.
    rewrite <- H, String.eqb_refl. apply IH. lia. }
  destruct (attempts - 1)%nat as [|n]; [reflexivity|]. cbn. rewrite (E 0%nat). cbn. rewrite U. apply G. lia.
Qed.
Print Assumptions no_second_chance_refuted.
(** Of the attempts asked for, one is left out. *)
Theorem one_attempt_short_refuted : forall D (net : nat -> list (answer D) * res unit) alias attempts,
  (forall i, (i < attempts - 1)%nat -> net i = ([], Ok tt)) -> find_dev_from_alias alias attempts net = Missing.
Proof.
  intros D net alias attempts E. unfold find_dev_from_alias.
  assert (G : forall n i seen, (i + n <= attempts - 1)%nat -> do_discover alias net i n seen = Missing).
  { induction n as [|n IH]; intros i seen I; [reflexivity|]. cbn. rewrite (E i) by lia. cbn. apply IH. lia. }
  apply G. lia.
Qed.
Print Assumptions one_attempt_short_refuted.

(** ** Examples *)
Definition quiet_world : world string := mkW string (fun _ c => match c_host c with Some h => h | None => "" end)
  (fun _ c => match c_host c with Some h => Ok h | None => Err KKasa end)
  (fun _ h => Ok (Some h)) (fun _ => Ok [("10.0.0.7", "10.0.0.7")]) (fun _ a => if String.eqb a "Lamp" then Ok (Some "10.0.0.8") else Ok None)
  (fun _ _ => Ok tt) (fun _ _ => Ok tt) (fun _ s _ => if String.eqb s "boom" then Err KKasa else Ok tt) (fun _ _ => Ok tt) (fun _ => PyAttributeError).
Definition opts0 : opts := mkOpts false (Some "on") (Some "10.0.0.9") (Some 9999) None "255.255.255.255" None None false
  "SMART.TAPOPLUG" 2 5 10 (Some "me") (Some "secret") (Some "hash").
Definition set_sub o s := mkOpts (o_help o) s (o_host o) (o_port o) (o_alias o) (o_target o) (o_type o) (o_enc o) (o_https o)
    (o_family o) (o_login o) (o_timeout o) (o_discovery o) (o_user o) (o_password o) (o_hash o).
Definition set_type o t := mkOpts (o_help o) (o_sub o) (o_host o) (o_port o) (o_alias o) (o_target o) t (o_enc o) (o_https o)
    (o_family o) (o_login o) (o_timeout o) (o_discovery o) (o_user o) (o_password o) (o_hash o).
Definition set_alias o a := mkOpts (o_help o) (o_sub o) None (o_port o) (Some a) (o_target o) (o_type o) (o_enc o) (o_https o)
    (o_family o) (o_login o) (o_timeout o) (o_discovery o) (o_user o) (o_password o) (o_hash o).
Example cli_ex :
  cli quiet_world opts0 [] =
    ([Single "10.0.0.9" (Some 9999) (Some ("me", "secret")) 5 10; Update "10.0.0.9"; Run "on" "10.0.0.9"; Disconnect "10.0.0.9"], Go tt)
  /\ cli quiet_world (set_type opts0 (Some TPlug)) [] = ([Update "10.0.0.9"; Run "on" "10.0.0.9"; Disconnect "10.0.0.9"], Go tt)
  /\ cli quiet_world (set_type (set_sub opts0 (Some "boom")) (Some TCamera)) [] =
    ([Connect (mkConfig (Some "10.0.0.9") (Some 9999) (Some ("me", "secret")) (Some "hash") 5 (mkParams SmartIpCamera Aes (Some 2) true None));
      Run "boom" "10.0.0.9"; Disconnect "10.0.0.9"], Stop (Raise KKasa))
  /\ cli quiet_world (set_alias opts0 "Lamp") [] =
    ([ByAlias "Lamp" "255.255.255.255" (Some ("me", "secret")); Run "on" "10.0.0.8"; Disconnect "10.0.0.8"], Go tt)
  /\ cli quiet_world (set_sub opts0 None) [] =
    ([Single "10.0.0.9" (Some 9999) (Some ("me", "secret")) 5 10; Update "10.0.0.9"; State "10.0.0.9"; Disconnect "10.0.0.9";
      Update "10.0.0.9"; Disconnect "10.0.0.9"], Go tt).
Proof. vm_compute. auto. Qed.
Example approach_ex : ~ conflicting opts0 /\ real_hosts quiet_world
  /\ approach quiet_world opts0 "on" [Single "10.0.0.9" (Some 9999) (Some ("me", "secret")) 5 10; Update "10.0.0.9"] "10.0.0.9".
Proof.
  split; [|split].
  - intros [[A _]|[_ [[A _]|[[A _]|[[_ A]|(_ & A & _)]]]]]; try (now apply A); try discriminate; destruct A; discriminate.
  - intros l f H d I. injection H as <-. destruct I as [I|[]]. discriminate.
  - apply (by_address quiet_world opts0 "on" "10.0.0.9" (Some ("me", "secret"))); try reflexivity; auto; try discriminate.
    + cbn. repeat split; discriminate.
    + right. split; [intros [A|A]; discriminate|]. split; reflexivity.
Qed.
Example refused_ex : conflicting (mkOpts false (Some "on") None None None "255.255.255.255" None None false "SMART.TAPOPLUG" 2 5 10 None None None).
Proof. right. split; [discriminate|]. right. right. right. split; [discriminate|auto]. Qed.
(** An AES plug: the options that are printed are SMART.TAPOPLUG and AES. *)
Example printed_ex :
  let c0 := mkConf "10.0.0.9" (Some 5) None (Some ("me", "secret")) None None default_params None None in
  let p := mkParams SmartTapoPlug Aes (Some 2) false None in
  let o := mkOpts false (Some "on") (Some "10.0.0.9") None None "255.255.255.255" None (Some Aes) false "SMART.TAPOPLUG" 2 5 10
             (Some "me") (Some "secret") None in
  existsb (fun kp => match snd kp with mkParams SmartTapoPlug Aes (Some 2) false None => true | _ => false end) (candidates main_device_families) = true
  /\ typed_in (printed_options p) c0 o.
Proof.
  cbv zeta. split; [vm_compute; reflexivity|].
  repeat split; try discriminate; cbn.
  - intros [A|A]; discriminate.
  - intros [A|A]; discriminate.
  - exists Aes. split; reflexivity.
Qed.
Example alias_ex :
  let a := mkAnswer "10.0.0.8" 8%nat (Ok tt) (Some "Lamp") in
  let b := mkAnswer "10.0.0.7" 7%nat (Err KTimeout) None in
  find_dev_from_alias "lAMP" 3 (fun i => if Nat.eqb i 1 then ([b; a], Ok tt) else ([b], Ok tt)) = Found 8%nat
  /\ named "lAMP" a.
Proof. cbv zeta. split; [vm_compute; reflexivity|]. split; [reflexivity|]. exists "Lamp". split; [reflexivity|]. split; [discriminate|reflexivity]. Qed.
