(** C141: the text of a feature tells its value, and the listing shows every feature once. *)
From Verif Require Import Base Base_Lemmas Py Feature_Model Show_Model Show_Spec.
From Coq Require Import Permutation.
Open Scope string_scope.
Open Scope list_scope.
Open Scope Z_scope.

Section Text.
Variable text : value -> string.
Variable enum_repr : string -> string.
Variable err_text : exn -> string.
Variable round_to : Z -> pyfloat -> pyfloat.
Variable list_text : list string -> string.
Notation repr := (repr text enum_repr err_text round_to list_text).

Lemma between_skip a b : no_star a -> between_stars (a ++ b) = between_stars b.
Proof.
  induction a as [|c a IH]; intros N; [reflexivity|]. cbn [append between_stars].
  destruct (Ascii.eqb_spec c star); [exfalso; apply N; left; exact e|]. apply IH. intros H. apply N. now right.
Qed.
Lemma up_to_at a b : no_star a -> up_to_star (a ++ String star b) = Some a.
Proof.
  induction a as [|c a IH]; intros N; [reflexivity|]. cbn [append up_to_star].
  destruct (Ascii.eqb_spec c star); [exfalso; apply N; left; exact e|]. rewrite IH; [reflexivity|]. intros H. apply N. now right.
Qed.
Lemma sassoc (a b c : string) : ((a ++ b) ++ c = a ++ (b ++ c))%string.
Proof. induction a as [|x a IH]; [reflexivity|]. cbn [append]. now rewrite IH. Qed.
Lemma between_marked v b : no_star v -> between_stars (("*" ++ v ++ "*") ++ b) = Some v.
Proof.
  intros N. rewrite !sassoc. change (between_stars ("*" ++ v ++ "*" ++ b)) with (up_to_star (v ++ String star b)). exact (up_to_at v b N).
Qed.
Lemma no_star_app a b : no_star a -> no_star b -> no_star (a ++ b).
Proof.
  induction a as [|c a IH]; intros A B; [exact B|]. intros [E|H]; [apply A; left; exact E|]. revert H. apply IH; [|exact B]. intros H. apply A. now right.
Qed.
Lemma concat_marked v l b : In v l -> Forall no_star l -> between_stars (String.concat " " (map (mark (VStr v)) l) ++ b) = Some v.
Proof.
  induction l as [|c l IH]; intros I F; [destruct I|]. inversion F as [|? ? F1 F2]; subst.
  assert (R : forall x, (String.concat " " (map (mark (VStr v)) (c :: l)) ++ x = mark (VStr v) c ++ (match l with [] => "" | _ => " " ++ String.concat " " (map (mark (VStr v)) l) end ++ x))%string).
  { intros x. destruct l as [|d l]; [reflexivity|]. cbn [map String.concat]. now rewrite !sassoc. }
  rewrite R. unfold mark at 1. cbn [current]. destruct (String.eqb_spec c v) as [->|N].
  - now apply between_marked.
  - destruct I as [I | I]; [congruence|]. rewrite between_skip by exact F1. destruct l as [|d l]; [destruct I|].
    rewrite sassoc. rewrite between_skip by (intros [H|[]]; discriminate H). exact (IH I F2).
Qed.

(** A choice whose value is one of the choices is marked with stars, and can be read from
    the text. *)
Theorem choice_text : forall r v l s, r_type r = Choice -> (r_value r = Ok (VStr v) \/ r_value r = Ok (VEnum v)) -> r_choices r = Ok (CList l) -> In v l ->
  no_star (r_name r) -> no_star (r_id r) -> Forall no_star l -> repr r = Ok s -> between_stars s = Some v.
Proof.
  intros r v l s T V C I N1 N2 F R. unfold Show_Model.repr in R.
  assert (X : existsb (String.eqb v) l = true) by (apply existsb_exists; exists v; split; [exact I|apply String.eqb_refl]).
  assert (M : map (mark (VEnum v)) l = map (mark (VStr v)) l) by reflexivity.
  assert (G : finish enum_repr r (String.concat " " (map (mark (VStr v)) l)) = Ok s).
  { destruct V as [V | V]; rewrite V, C in R; cbn [bind] in R; rewrite T in R; unfold invalid, in_choices in R; rewrite X in R; cbn [negb andb] in R; exact R. }
  clear R. unfold finish in G. rewrite T in G. destruct (r_unit r) as [u|e]; cbn [bind] in G; [|discriminate G].
  assert (H : no_star (head r)).
  { unfold head. apply no_star_app; [exact N1|]. apply no_star_app; [intros H; cbn in H; intuition discriminate|]. apply no_star_app; [exact N2|]. intros H; cbn in H; intuition discriminate. }
  destruct u as [|t|t]; injection G as <-.
  - rewrite between_skip by exact H. pose proof (concat_marked v l "" I F) as W.
    replace (String.concat " " (map (mark (VStr v)) l) ++ "")%string with (String.concat " " (map (mark (VStr v)) l)) in W; [exact W|].
    generalize (String.concat " " (map (mark (VStr v)) l)). clear. induction s as [|c s IH]; [reflexivity|]. cbn [append]. now rewrite <- IH.
  - rewrite !sassoc. rewrite between_skip by exact H. now apply concat_marked.
  - rewrite !sassoc. rewrite between_skip by exact H. now apply concat_marked.
Qed.

(** A member of an enumeration that is not among the choices is reported, with its text;
    a value that cannot be read is reported with the reason. *)
Theorem foreign_enum_text : forall r n l, r_type r = Choice -> r_value r = Ok (VEnum n) -> r_choices r = Ok (CList l) -> ~ In n l ->
  exists a b, repr r = Ok (a ++ "invalid value '" ++ text (VEnum n) ++ b)%string.
Proof.
  intros r n l T V C N. unfold Show_Model.repr. rewrite V, C. cbn [bind]. rewrite T. unfold invalid, in_choices. cbn [negb andb].
  destruct (existsb (String.eqb n) l) eqn:X; [apply existsb_exists in X; destruct X as (y & Y1 & Y2); apply String.eqb_eq in Y2; subst y; now destruct N|].
  cbn [negb]. eexists _, _. reflexivity.
Qed.
Theorem unreadable_text : forall r e, r_value r = Err e -> repr r = Ok ("Unable to read value (" ++ r_id r ++ "): " ++ err_text e)%string.
Proof. intros r e V. unfold Show_Model.repr. now rewrite V. Qed.
(** A text that is not among the choices is not shown at all: the feature looks the same
    whatever it is. *)
Theorem foreign_choice_refuted : forall r r' v v' l, r_type r = Choice -> r_choices r = Ok (CList l) -> ~ In v l -> ~ In v' l ->
  r_value r = Ok (VStr v) ->
  r' = mkReading (r_id r) (r_name r) (r_type r) (r_category r) (Ok (VStr v')) (r_choices r) (r_unit r) (r_range r) (r_precision r) ->
  repr r' = repr r.
Proof.
  intros r r' v v' l T C N N' V ->. unfold Show_Model.repr. cbn [r_value r_choices r_type]. rewrite V, C. cbn [bind]. rewrite T.
  unfold invalid. rewrite !Bool.andb_false_r.
  assert (M : forall w, ~ In w l -> map (mark (VStr w)) l = l).
  { intros w Hw. rewrite <- (map_id l) at 2. apply map_ext_in. intros c Hc. unfold mark. cbn [current]. destruct (String.eqb_spec c w) as [->|]; [now destruct Hw|reflexivity]. }
  rewrite (M v N), (M v' N'). unfold finish, head. cbn [r_name r_id r_unit r_type]. rewrite ?T. reflexivity.
Qed.
(** The text of a number gives its value, its unit and its limits. *)
Theorem number_text : forall r v u g c, r_type r = Number -> r_value r = Ok (VInt v) -> r_choices r = Ok c -> r_unit r = Ok u -> r_range r = Ok g ->
  exists lo hi, (lo, hi) = match g with Some g => g | None => (0, 65536) end /\
  repr r = Ok (r_name r ++ " (" ++ r_id r ++ "): " ++ text (VInt v) ++ (match u with UNone => "" | UText t => " " ++ t | UEnum n => " " ++ enum_repr n end)
               ++ " (range: " ++ digits lo ++ "-" ++ digits hi ++ ")")%string.
Proof.
  intros r v u g c T V C U G. exists (minimum g), (maximum g). split; [destruct g as [[lo hi]|]; reflexivity|].
  unfold Show_Model.repr. rewrite V, C. cbn [bind]. rewrite T. unfold finish, plain_text, rounded, head. rewrite U, G, T. cbn [bind].
  destruct (r_precision r); destruct u; rewrite ?sassoc; reflexivity.
Qed.
(** The text never fails but for the unit and the limits. *)
Theorem text_fails_partial : forall r e, repr r = Err e -> r_unit r = Err e \/ (r_type r = Number /\ r_range r = Err e).
Proof.
  assert (F : forall r s e, finish enum_repr r s = Err e -> r_unit r = Err e \/ (r_type r = Number /\ r_range r = Err e)).
  { intros r s e. unfold finish. destruct (r_unit r) as [u|e']; cbn [bind]; [|intros H; left; congruence].
    destruct (r_type r); try discriminate. destruct (r_range r); cbn [bind]; [discriminate|]. intros H. right. split; [reflexivity|congruence]. }
  intros r e. unfold Show_Model.repr. destruct (r_value r) as [v|]; cbn [bind]; [|discriminate]. destruct (r_choices r) as [c|]; cbn [bind]; [|discriminate].
  destruct (r_type r) eqn:T; try (intros H; apply F in H; rewrite T in H; exact H). destruct c as [|l|]; try discriminate. destruct (invalid v l); [discriminate|].
  intros H. apply F in H. rewrite T in H. exact H.
Qed.

(** ** The listing *)
Notation echo_all := (echo_all text enum_repr err_text round_to list_text).
Lemma under_lines c fs rest : under (Some c) (map (feature_line text enum_repr err_text round_to list_text) fs ++ rest) = map (fun r => (c, r_id r)) fs ++ under (Some c) rest.
Proof. induction fs as [|r fs IH]; [reflexivity|]. cbn [map List.app]. unfold feature_line at 1. destruct (Show_Model.repr _ _ _ _ _ r); cbn [under]; now rewrite IH. Qed.
(** Every feature that was accepted is listed exactly once, under the title of its
    category, also if its text cannot be made; nothing else is. *)
Theorem listing_complete : forall fs, Forall (fun r => exists d f, new d = Ok f /\ r_category r = f_category (decl_ f)) fs ->
  Permutation (under None (echo_all fs)) (map (fun r => (r_category r, r_id r)) fs).
Proof.
  intros fs F. unfold Show_Model.echo_all, echo_features. cbn [List.app under]. rewrite under_lines. cbn [under].
  rewrite under_lines. cbn [under]. rewrite under_lines. cbn [under]. rewrite <- (app_nil_r (map _ (filter (fun r => category_eqb (r_category r) Debug) fs))).
  rewrite under_lines. cbn [under]. rewrite app_nil_r.
  induction fs as [|r fs IH]; [constructor|]. inversion F as [|? ? (d & f & N & E) F2]; subst. specialize (IH F2).
  assert (U : r_category r <> Unset).
  { rewrite E. unfold new, post_init, setter_truthy in N. intros Q.
    destruct (f_type d), (f_category d), (f_setter d) as [[|n]|]; try destruct (String.eqb n ""); cbn [bind negb] in N; try discriminate N;
      (assert (W := f_equal (fun x => match x with Ok y => f_category (decl_ y) | Err _ => Debug end) N); cbn in W; rewrite Q in W; discriminate W). }
  cbn [filter]. destruct (r_category r) eqn:C; cbn [category_eqb map List.app]; [| | | |congruence]; rewrite ?C.
  - now constructor.
  - rewrite app_assoc in IH. rewrite app_assoc. apply Permutation_sym, Permutation_cons_app, Permutation_sym. exact IH.
  - apply Permutation_sym, Permutation_cons_app, Permutation_sym. exact IH.
  - rewrite !app_assoc in *. apply Permutation_sym, Permutation_cons_app, Permutation_sym. exact IH.
Qed.
End Text.
Print Assumptions choice_text.
Print Assumptions foreign_enum_text.
Print Assumptions unreadable_text.
Print Assumptions foreign_choice_refuted.
Print Assumptions number_text.
Print Assumptions text_fails_partial.
Print Assumptions listing_complete.

(** ** Cases *)
Definition no_text (v : value) : string := match v with VStr s => s | VInt z => digits z | _ => "?" end.
Definition effect (v : string) : reading :=
  mkReading "light_effect" "Light effect" Choice Primary (Ok (VStr v)) (Ok (CList ["Off"; "Aurora"; "Rainbow"])) (Ok UNone) (Ok None) None.
Definition show := Show_Model.repr no_text (fun n => n) (fun _ => "?") (fun _ f => f) (fun _ => "?").
Example choice_case : show (effect "Aurora") = Ok "Light effect (light_effect): Off *Aurora* Rainbow" /\
  between_stars "Light effect (light_effect): Off *Aurora* Rainbow" = Some "Aurora" /\
  show (effect "My own") = Ok "Light effect (light_effect): Off Aurora Rainbow" /\ show (effect "My other") = show (effect "My own").
Proof. vm_compute. repeat split. Qed.
Example number_case : show (mkReading "brightness" "Brightness" Number Primary (Ok (VInt 50)) (Ok CNone) (Ok (UText "%")) (Ok (Some (0, 100))) None) =
  Ok "Brightness (brightness): 50 % (range: 0-100)".
Proof. reflexivity. Qed.
Example failing_case : show (mkReading "temperature" "Temperature" Sensor Primary (Ok (VInt 20)) (Ok CNone) (Err PyKeyError) (Ok None) None) = Err PyKeyError.
Proof. reflexivity. Qed.
Example listing_case :
  let b := mkReading "rssi" "RSSI" Sensor Debug (Ok (VInt (-50))) (Ok CNone) (Ok (UText "dBm")) (Ok None) None in
  let l := Show_Model.echo_all no_text (fun n => n) (fun _ => "?") (fun _ f => f) (fun _ => "?") [b; effect "Off"] in
  l = [LTitle Primary; LFeature "light_effect" "Light effect (light_effect): *Off* Aurora Rainbow"; LBlank; LTitle Info; LBlank; LTitle Config; LBlank; LTitle Debug;
       LFeature "rssi" "RSSI (rssi): -50 dBm"] /\
  under None l = [(Primary, "light_effect"); (Debug, "rssi")] /\
  exists d f, new d = Ok f /\ f_category (decl_ f) = Debug.
Proof. vm_compute. repeat split. exists (mkDecl Sensor Debug None false false true). eexists. split; reflexivity. Qed.
