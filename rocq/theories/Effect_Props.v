(** Light effects (C49, C76). *)
From Coq Require Import Lia ZifyN ZifyClasses.
From Verif Require Import Base Base_Lemmas Py Crypto_Model Crypto_Proofs Gadget_Model Gadget_Props Vacuum_Model Vacuum_Props Effect_Model.
Open Scope string_scope.
Open Scope list_scope.
Open Scope Z_scope.

(** ** Text *)
(** Unicode scalar values and their UTF-8 encoding. *)
Definition scalar (c : N) : Prop := (c < 55296 \/ 57344 <= c < 1114112)%N.
Definition byte_of (n : N) : byte := ascii_of_N n.
Definition utf8_of (c : N) : bytes :=
  if (c <? 128)%N then [byte_of c]
  else if (c <? 2048)%N then [byte_of (192 + c / 64); byte_of (128 + c mod 64)]
  else if (c <? 65536)%N then [byte_of (224 + c / 4096); byte_of (128 + c / 64 mod 64); byte_of (128 + c mod 64)]
  else [byte_of (240 + c / 262144); byte_of (128 + c / 4096 mod 64); byte_of (128 + c / 64 mod 64); byte_of (128 + c mod 64)].
Definition is_text (s : string) : Prop := exists cs, Forall scalar cs /\ list_ascii_of_string s = flat_map utf8_of cs.
Lemma bval_of : forall n, (n < 256)%N -> bval (byte_of n) = n.
Proof. intros n H. apply N_ascii_embedding, H. Qed.
Lemma in_yes : forall lo hi n, (n < 256 /\ lo <= n /\ n <= hi)%N -> in_range lo hi (byte_of n) = true.
Proof. intros lo hi n (H & L & U). unfold in_range. rewrite bval_of by exact H. apply andb_true_iff. rewrite !N.leb_le. auto. Qed.
Lemma in_no : forall lo hi n, (n < 256 /\ (n < lo \/ hi < n))%N -> in_range lo hi (byte_of n) = false.
Proof. intros lo hi n (H & U). unfold in_range. rewrite bval_of by exact H. apply andb_false_iff. rewrite !N.leb_gt. exact U. Qed.
Ltac ranges := unfold cont;
  repeat match goal with
  | |- context [in_range ?lo ?hi (byte_of ?n)] => first [rewrite (in_yes lo hi n) by lia | rewrite (in_no lo hi n) by lia]; cbn [andb]
  end.
Lemma utf8_2_eq : forall a b t, utf8 (a :: b :: t) =
  if in_range 0 127 a then utf8 (b :: t) else if in_range 194 223 a then cont b && utf8 t else utf8 (a :: b :: t).
Proof. intros. cbn [utf8]. destruct (in_range 0 127 a), (in_range 194 223 a); reflexivity. Qed.
Lemma utf8_3_eq : forall a b c t, in_range 0 127 a = false -> in_range 194 223 a = false -> utf8 (a :: b :: c :: t) =
  if in_range 224 224 a then in_range 160 191 b && cont c && utf8 t
  else if in_range 237 237 a then in_range 128 159 b && cont c && utf8 t
  else if in_range 225 239 a then cont b && cont c && utf8 t else utf8 (a :: b :: c :: t).
Proof. intros a b c t H1 H2. cbn [utf8]. rewrite H1, H2. destruct (in_range 224 224 a), (in_range 237 237 a), (in_range 225 239 a); reflexivity. Qed.
Lemma utf8_4_eq : forall a b c d t, in_range 0 127 a = false -> in_range 194 223 a = false -> in_range 224 224 a = false ->
  in_range 237 237 a = false -> in_range 225 239 a = false -> utf8 (a :: b :: c :: d :: t) =
  if in_range 240 240 a then in_range 144 191 b && cont c && cont d && utf8 t
  else if in_range 241 243 a then cont b && cont c && cont d && utf8 t
  else if in_range 244 244 a then in_range 128 143 b && cont c && cont d && utf8 t else false.
Proof. intros a b c d t H1 H2 H3 H4 H5. cbn [utf8]. rewrite H1, H2, H3, H4, H5. reflexivity. Qed.
Lemma utf8_2 : forall q r t, (2 <= q < 32)%N -> (r < 64)%N -> utf8 (byte_of (192 + q) :: byte_of (128 + r) :: t) = utf8 t.
Proof. intros q r t Q R. rewrite utf8_2_eq. rewrite (in_no 0 127), (in_yes 194 223) by lia. ranges. reflexivity. Qed.
Lemma utf8_3 : forall q r s t, (q < 16)%N -> (r < 64)%N -> (s < 64)%N -> (q = 0 -> 32 <= r)%N -> (q = 13 -> r < 32)%N ->
  utf8 (byte_of (224 + q) :: byte_of (128 + r) :: byte_of (128 + s) :: t) = utf8 t.
Proof.
  intros q r s t Q R S Q0 Q13. rewrite utf8_3_eq by (apply in_no; lia).
  destruct (N.eq_dec q 0) as [->|N0]; [specialize (Q0 eq_refl); rewrite (in_yes 224 224) by lia; ranges; reflexivity|].
  rewrite (in_no 224 224) by lia.
  destruct (N.eq_dec q 13) as [->|N13]; [specialize (Q13 eq_refl); rewrite (in_yes 237 237) by lia; ranges; reflexivity|].
  rewrite (in_no 237 237), (in_yes 225 239) by lia. ranges. reflexivity.
Qed.
Lemma utf8_4 : forall q p r s t, (q <= 4)%N -> (p < 64)%N -> (r < 64)%N -> (s < 64)%N -> (q = 0 -> 16 <= p)%N -> (q = 4 -> p < 16)%N ->
  utf8 (byte_of (240 + q) :: byte_of (128 + p) :: byte_of (128 + r) :: byte_of (128 + s) :: t) = utf8 t.
Proof.
  intros q p r s t Q P R S Q0 Q4. rewrite utf8_4_eq by (apply in_no; lia).
  destruct (N.eq_dec q 0) as [->|N0]; [specialize (Q0 eq_refl); rewrite (in_yes 240 240) by lia; ranges; reflexivity|].
  rewrite (in_no 240 240) by lia.
  destruct (N.eq_dec q 4) as [->|N4]; [specialize (Q4 eq_refl); rewrite (in_no 241 243), (in_yes 244 244) by lia; ranges; reflexivity|].
  rewrite (in_yes 241 243) by lia. ranges. reflexivity.
Qed.
Lemma utf8_scalar : forall c t, scalar c -> utf8 (utf8_of c ++ t) = utf8 t.
Proof.
  intros c t H. unfold scalar in H. unfold utf8_of.
  destruct (N.ltb_spec c 128) as [L1|L1].
  { cbn [app utf8]. rewrite (in_yes 0 127) by lia. reflexivity. }
  pose proof (N.mod_lt c 64 ltac:(lia)) as M0. pose proof (N.div_mod c 64 ltac:(lia)) as D0.
  destruct (N.ltb_spec c 2048) as [L2|L2]; [apply utf8_2; lia|].
  pose proof (N.mod_lt (c / 64) 64 ltac:(lia)) as M1. pose proof (N.div_mod (c / 64) 64 ltac:(lia)) as D1.
  assert (E4 : (c / 4096 = c / 64 / 64)%N) by (rewrite N.div_div by lia; reflexivity).
  destruct (N.ltb_spec c 65536) as [L3|L3]; [rewrite E4; apply utf8_3; lia|].
  pose proof (N.mod_lt (c / 64 / 64) 64 ltac:(lia)) as M2. pose proof (N.div_mod (c / 64 / 64) 64 ltac:(lia)) as D2.
  assert (E5 : (c / 262144 = c / 64 / 64 / 64)%N) by (rewrite !N.div_div by lia; reflexivity).
  rewrite E4, E5. apply utf8_4; lia.
Qed.
Lemma utf8_text : forall cs, Forall scalar cs -> utf8 (flat_map utf8_of cs) = true.
Proof. induction 1 as [|c cs H _ IH]; [reflexivity|]. cbn [flat_map]. rewrite utf8_scalar by exact H. exact IH. Qed.

(** ** base64 *)
Lemma sx_not_pad : forall s, Ascii.eqb (sx_char s) pad_char = false.
Proof.
  intro s. apply Ascii.eqb_neq. intro E. pose proof (char_sx_char s) as C. rewrite E in C. vm_compute in C. discriminate.
Qed.
Lemma a2b_pad : forall st p t, a2b st p (pad_char :: t) =
  match st with
  | P0 | P6 _ => a2b st p t
  | P4 _ _ _ _ => if (4 <=? 2 + S p)%nat then Ok [] else a2b st (S p) t
  | P2 _ _ => if (4 <=? 3 + S p)%nat then Ok [] else a2b st (S p) t
  end.
Proof. reflexivity. Qed.
Lemma a2b_char : forall st p x5 x4 x3 x2 x1 x0 t, a2b st p (sx_char (Sx x5 x4 x3 x2 x1 x0) :: t) =
  match st with
  | P0 => a2b (P6 (Sx x5 x4 x3 x2 x1 x0)) 0 t
  | P6 (Sx a7 a6 a5 a4 a3 a2) => let! r := a2b (P4 x3 x2 x1 x0) 0 t in Ok (Ascii x4 x5 a2 a3 a4 a5 a6 a7 :: r)
  | P4 b7 b6 b5 b4 => let! r := a2b (P2 x1 x0) 0 t in Ok (Ascii x2 x3 x4 x5 b4 b5 b6 b7 :: r)
  | P2 c7 c6 => let! r := a2b P0 0 t in Ok (Ascii x0 x1 x2 x3 x4 x5 c6 c7 :: r)
  end.
Proof. intros. cbn [a2b]. rewrite sx_not_pad, char_sx_char. reflexivity. Qed.
Lemma a2b_encode_len : forall n m, (length m <= n)%nat -> a2b P0 0 (b64encode m) = Ok m.
Proof.
  induction n as [|n IH]; intros m Hl; [destruct m; [reflexivity | cbn in Hl; lia]|].
  destruct m as [|[a0 a1 a2 a3 a4 a5 a6 a7] m]; [reflexivity|].
  destruct m as [|[b0 b1 b2 b3 b4 b5 b6 b7] m].
  { cbn [b64encode]. rewrite !a2b_char, !a2b_pad. reflexivity. }
  destruct m as [|[c0 c1 c2 c3 c4 c5 c6 c7] m].
  { cbn [b64encode]. rewrite !a2b_char, !a2b_pad. reflexivity. }
  cbn [b64encode]. rewrite !a2b_char. rewrite IH by (cbn in Hl; lia). reflexivity.
Qed.
Lemma a2b_encode : forall m, a2b P0 0 (b64encode m) = Ok m.
Proof. intro m. apply (a2b_encode_len (length m)). lia. Qed.
Lemma sx_ascii : forall s, is_ascii (sx_char s) = true.
Proof. destruct s as [[] [] [] [] [] []]; vm_compute; reflexivity. Qed.
Lemma encode_ascii_len : forall n m, (length m <= n)%nat -> forallb is_ascii (b64encode m) = true.
Proof.
  induction n as [|n IH]; intros m Hl; [destruct m; [reflexivity | cbn in Hl; lia]|].
  destruct m as [|[a0 a1 a2 a3 a4 a5 a6 a7] m]; [reflexivity|].
  destruct m as [|[b0 b1 b2 b3 b4 b5 b6 b7] m].
  { cbn [b64encode forallb]. rewrite !sx_ascii. reflexivity. }
  destruct m as [|[c0 c1 c2 c3 c4 c5 c6 c7] m].
  { cbn [b64encode forallb]. rewrite !sx_ascii. reflexivity. }
  cbn [b64encode forallb]. rewrite !sx_ascii, IH by (cbn in Hl; lia). reflexivity.
Qed.
(** A character of the base64 alphabet. *)
Definition letter (c : byte) : bool :=
  existsb (Ascii.eqb c) (list_ascii_of_string "ABCDEFGHIJKLMNOPQRSTUVWXYZabcdefghijklmnopqrstuvwxyz0123456789+/").
Lemma letter_spec : forall c, letter c = match char_sx c with Some _ => true | None => false end.
Proof. intros [[] [] [] [] [] [] [] []]; vm_compute; reflexivity. Qed.
Definition held (st : pending) : nat := match st with P0 => 0 | P6 _ => 1 | P4 _ _ _ _ => 2 | P2 _ _ => 3 end.
Lemma a2b_count : forall t st p, forallb (fun c => negb (Ascii.eqb c pad_char)) t = true ->
  ((held st + length (filter letter t)) mod 4 <> 0)%nat -> a2b st p t = Err PyValueError.
Proof.
  induction t as [|c t IH]; intros st p Hp H.
  - destruct st; cbn in H; [congruence| | |]; reflexivity.
  - cbn [forallb] in Hp. apply andb_true_iff in Hp as [Hc Hp]. apply negb_true_iff in Hc. cbn [a2b filter] in *. rewrite Hc, letter_spec in *.
    destruct (char_sx c) as [[x5 x4 x3 x2 x1 x0]|]; [|apply IH; assumption]. cbn [length] in H.
    destruct st as [|[a7 a6 a5 a4 a3 a2]|b7 b6 b5 b4|c7 c6]; cbn [held] in H.
    + apply IH; [assumption|]. exact H.
    + rewrite IH; [reflexivity|assumption|]. cbn [held]. replace (2 + length (filter letter t))%nat with (1 + S (length (filter letter t)))%nat by lia. exact H.
    + rewrite IH; [reflexivity|assumption|]. cbn [held]. replace (3 + length (filter letter t))%nat with (2 + S (length (filter letter t)))%nat by lia. exact H.
    + rewrite IH; [reflexivity|assumption|]. cbn [held]. intro C. apply H. replace (3 + S (length (filter letter t)))%nat with (0 + length (filter letter t) + 1 * 4)%nat by lia.
      rewrite Nat.mod_add by lia. exact C.
Qed.

(** ** C49 *)
Definition b64 (s : string) : string := string_of_list_ascii (b64encode (list_ascii_of_string s)).
(** How the device with effect [i] writes its name [n]: nothing for the built-in names, else the
    name in base64, or the name itself when that cannot be taken for base64. *)
Inductive written (i : string) : string -> string -> Prop :=
| built_in : forall n, In (i, n) [("L1", "Party"); ("L2", "Relax")] -> written i "" n
| encoded : forall n, n <> "" -> is_text n -> written i (b64 n) n
| plain : forall n, n <> "" -> Forall (fun c => (bval c < 128)%N /\ c <> "="%char) (list_ascii_of_string n) ->
    (length (filter letter (list_ascii_of_string n)) mod 4 <> 0)%nat -> written i n n.
Lemma text_encoded : forall n, is_text n -> scene_text (b64 n) = Ok n.
Proof.
  intros n (cs & Hc & E). unfold scene_text, b64. rewrite list_ascii_of_string_of_list_ascii.
  rewrite (encode_ascii_len (length (list_ascii_of_string n))) by lia. cbn [negb]. rewrite a2b_encode, E, utf8_text by exact Hc.
  rewrite <- E, string_of_list_ascii_of_string. reflexivity.
Qed.
Lemma text_plain : forall n, Forall (fun c => (bval c < 128)%N /\ c <> "="%char) (list_ascii_of_string n) ->
    (length (filter letter (list_ascii_of_string n)) mod 4 <> 0)%nat -> scene_text n = Ok n.
Proof.
  intros n H L. unfold scene_text.
  replace (forallb is_ascii (list_ascii_of_string n)) with true.
  2:{ symmetry. apply forallb_forall. rewrite Forall_forall in H. intros c Hc. destruct (H c Hc) as [Hb _]. unfold is_ascii, in_range.
      rewrite andb_true_iff, !N.leb_le. lia. }
  cbn [negb]. rewrite a2b_count; [reflexivity| |exact L].
  apply forallb_forall. rewrite Forall_forall in H. intros c Hc. destruct (H c Hc) as [_ Hb]. apply negb_true_iff, Ascii.eqb_neq. exact Hb.
Qed.
Lemma b64_nonempty : forall n, n <> "" -> b64 n <> "".
Proof.
  intros [|[a0 a1 a2 a3 a4 a5 a6 a7] n] H; [congruence|]. unfold b64. cbn [list_ascii_of_string].
  destruct (list_ascii_of_string n) as [|[b0 b1 b2 b3 b4 b5 b6 b7] [|[c0 c1 c2 c3 c4 c5 c6 c7] m]]; discriminate.
Qed.
(** A table of effects: id, name, and the rule the device reports. *)
Definition row := (string * string * dict json)%type.
Definition row_id (x : row) : string := fst (fst x).
Definition row_name (x : row) : string := snd (fst x).
Definition row_rule (x : row) : dict json := snd x.
Definition row_ok (x : row) : Prop :=
  dget "id" (row_rule x) = Some (JStr (row_id x)) /\
  exists raw, dget "scene_name" (row_rule x) = Some (JStr raw) /\ written (row_id x) raw (row_name x).
Lemma by_id_rows : forall tbl acc, Forall row_ok tbl -> NoDup (map fst acc ++ map row_id tbl) ->
  by_id (map row_rule tbl) acc = Ok (acc ++ map (fun x => (row_id x, row_rule x)) tbl).
Proof.
  induction tbl as [|x tbl IH]; intros acc H N; [cbn; rewrite app_nil_r; reflexivity|]. inversion H as [|? ? [Hi _] Ht]; subst.
  cbn [map by_id]. unfold str_item, dindex. rewrite Hi. cbn [bind].
  assert (F : dset (row_id x) (row_rule x) acc = acc ++ [(row_id x, row_rule x)]).
  { assert (A : ~ In (row_id x) (map fst acc)) by (intro C; cbn [map] in N; apply NoDup_remove_2 in N; apply N, in_or_app; left; exact C).
    clear - A. induction acc as [|[k v] acc IH]; [reflexivity|]. cbn [dset app]. cbn [map fst] in A.
    destruct (String.eqb_spec (row_id x) k); [subst; exfalso; apply A; left; reflexivity|]. rewrite IH; [reflexivity|]. intro C. apply A. right. exact C. }
  rewrite F, IH; [|exact Ht|].
  - rewrite <- app_assoc. reflexivity.
  - rewrite map_app. cbn [map fst]. rewrite <- app_assoc. exact N.
Qed.
Definition renamed (x : row) : dict json := dset "scene_name" (JStr (row_name x)) (row_rule x).
Lemma name_rule_ok : forall x, row_ok x -> name_rule (row_rule x) = Ok (renamed x).
Proof.
  intros x (Hi & raw & Hs & W). unfold renamed. generalize dependent (row_name x). intros nm W.
  unfold name_rule, dindex at 1. rewrite Hs. cbn [bind truthy].
  destruct W as [n Hn|n Hn Ht|n Hn Ha Hl].
  - cbn [String.eqb negb]. unfold str_item, dindex at 1. rewrite Hi. cbn [bind].
    cbn in Hn. destruct Hn as [[= E1 E2]|[[= E1 E2]|[]]]; unfold dindex; rewrite <- E1; cbn; rewrite E2; reflexivity.
  - apply b64_nonempty in Hn. apply String.eqb_neq in Hn. rewrite Hn. cbn [negb]. rewrite text_encoded by exact Ht. reflexivity.
  - apply String.eqb_neq in Hn. rewrite Hn. cbn [negb]. rewrite text_plain by assumption. reflexivity.
Qed.
Lemma name_rules_rows : forall tbl, Forall row_ok tbl -> name_rules (map (fun x => (row_id x, row_rule x)) tbl) = Ok (map (fun x => (row_id x, renamed x)) tbl).
Proof. induction 1 as [|x tbl H _ IH]; [reflexivity|]. cbn [map name_rules]. rewrite name_rule_ok by exact H. cbn [bind]. rewrite IH. reflexivity. Qed.
Lemma names_rows : forall tbl, Forall row_ok tbl -> names_of (map (fun x => (row_id x, renamed x)) tbl) = Ok (map (fun x => (row_name x, row_id x)) tbl).
Proof.
  induction 1 as [|x tbl [Hi _] _ IH]; [reflexivity|]. cbn [map names_of]. unfold str_item, dindex.
  assert (R1 : dget "scene_name" (renamed x) = Some (JStr (row_name x))) by (unfold renamed; rewrite dget_dset; reflexivity).
  assert (R2 : dget "id" (renamed x) = Some (JStr (row_id x))) by (unfold renamed; rewrite dget_dset; exact Hi).
  rewrite R1, R2. cbn [bind]. rewrite IH. reflexivity.
Qed.
Lemma dget_rows : forall {A} (f : row -> A) tbl x, NoDup (map row_id tbl) -> In x tbl -> dget (row_id x) (map (fun y => (row_id y, f y)) tbl) = Some (f x).
Proof.
  intros A f tbl x N H. apply In_dget; [|apply in_map_iff; exists x; auto].
  unfold dwf, dkeys. rewrite map_map. exact N.
Qed.
Lemma hook_rows : forall tbl active a, Forall row_ok tbl -> NoDup (map row_id tbl) ->
  match active with Some i => exists x, In x tbl /\ row_id x = i /\ row_name x = a | None => a = "Off" end ->
  effect_hook (map row_rule tbl) active =
    Ok (mkEff (map (fun x => (row_id x, renamed x)) tbl) ("Off" :: map row_name tbl) (dupdate [] (map (fun x => (row_name x, row_id x)) tbl)) a).
Proof.
  intros tbl active a H N Ha. unfold effect_hook. rewrite (by_id_rows tbl []) by assumption. cbn [bind app].
  rewrite name_rules_rows by exact H. cbn [bind]. rewrite names_rows by exact H. cbn [bind].
  assert (M : forall l : list row, map fst (map (fun x => (row_name x, row_id x)) l) = map row_name l) by (intro; rewrite map_map; reflexivity).
  destruct active as [i|].
  - destruct Ha as (x & Hx & <- & <-). unfold dindex. rewrite (dget_rows renamed) by assumption. cbn [bind]. unfold str_item, dindex, renamed at 1.
    rewrite dget_dset. cbn [bind String.eqb Ascii.eqb Bool.eqb]. rewrite M. reflexivity.
  - subst a. cbn [bind]. rewrite M. reflexivity.
Qed.
(** Every effect the device lists is available under its own name, and the active one is
    reported by its name. *)
Theorem effect_names_partial : forall tbl active a, Forall row_ok tbl -> NoDup (map row_id tbl) ->
  match active with Some i => exists x, In x tbl /\ row_id x = i /\ row_name x = a | None => a = "Off" end ->
  exists e, effect_hook (map row_rule tbl) active = Ok e /\ f_list e = "Off" :: map row_name tbl /\ f_active e = a.
Proof. intros tbl active a H N Ha. eexists. split; [apply hook_rows; eassumption|]. split; reflexivity. Qed.
Print Assumptions effect_names_partial.
(** A colour entry: brightness, hue, saturation and temperature. *)
Definition colours (l : list (json * json * json * json)) : json :=
  JArr (map (fun q => match q with (b, x, y, z) => JArr [b; x; y; z] end) l).
Definition with_brightness (b : Z) (l : list (json * json * json * json)) : list (json * json * json * json) :=
  map (fun q => match q with (_, x, y, z) => (JInt b, x, y, z) end) l.
Lemma replace_ok : forall b l,
  replace_all b (map (fun q : json * json * json * json => match q with (b, x, y, z) => JArr [b; x; y; z] end) l) =
  Ok (map (fun q : json * json * json * json => match q with (b, x, y, z) => JArr [b; x; y; z] end) (with_brightness b l)).
Proof. induction l as [|[[[b0 x] y] z] l IH]; [reflexivity|]. cbn [map replace_all replace_brightness index nth_error bind with_brightness]. rewrite IH. reflexivity. Qed.
(** Selecting an effect by its name first writes that effect, changed only in its brightness
    (and with its name spelt out), and then enables it. *)
Theorem effect_select_partial : forall reply tbl active a x l now b log v,
  Forall row_ok tbl -> NoDup (map row_id tbl) -> NoDup (map row_name tbl) -> ~ In "Off" (map row_name tbl) ->
  match active with Some i => exists x, In x tbl /\ row_id x = i /\ row_name x = a | None => a = "Off" end ->
  In x tbl -> dget "color_status_list" (row_rule x) = Some (colours l) ->
  let shade := match b with Some b => b | None => now end in
  exists e d, effect_hook (map row_rule tbl) active = Ok e /\
    (forall k, dget k d = match dget k [("scene_name", JStr (row_name x)); ("color_status_list", colours (with_brightness shade l))] with
                          | Some v => Some v
                          | None => dget k (row_rule x)
                          end) /\
    (reply (mkCmd "edit_dynamic_light_effect_rule" d) = Ok v ->
     let on := mkCmd "set_dynamic_light_effect_rule_enable" [("enable", JBool true); ("id", JStr (row_id x))] in
     set_effect reply e now (row_name x) b log = (log ++ [mkCmd "edit_dynamic_light_effect_rule" d; on], reply on)).
Proof.
  intros reply tbl active a x l now b log v H N Nn Noff Ha Hx Hl shade.
  eexists. exists (dset "color_status_list" (colours (with_brightness shade l)) (renamed x)). split; [apply hook_rows; eassumption|]. split.
  - intro k. unfold renamed. rewrite !dget_dset.
    destruct (String.eqb_spec k "color_status_list") as [->|N1]; [reflexivity|]. destruct (String.eqb_spec k "scene_name") as [->|N2]; [reflexivity|].
    cbn [dget]. apply String.eqb_neq in N1, N2. rewrite N1, N2. reflexivity.
  - intros Hv on. unfold set_effect. cbn [f_ids].
    assert (No : String.eqb (row_name x) OFF = false).
    { apply String.eqb_neq. intro E. apply Noff. unfold OFF in E. rewrite <- E. apply in_map, Hx. }
    assert (G : dget (row_name x) (dupdate [] (map (fun x => (row_name x, row_id x)) tbl)) = Some (row_id x)).
    { rewrite dget_dupdate_wf by (unfold dwf, dkeys; rewrite map_map; exact Nn).
      rewrite (In_dget (row_name x) (row_id x)); [reflexivity|unfold dwf, dkeys; rewrite map_map; exact Nn|]. apply in_map_iff. exists x. auto. }
    rewrite No. unfold dmem, dindex. rewrite G. cbn [negb andb]. unfold mbind at 1, mlift. unfold set_effect_brightness. cbn [f_rules].
    unfold dindex. rewrite (dget_rows renamed) by assumption. unfold mbind, mlift. unfold renamed at 1. rewrite dget_dset. cbn [String.eqb Ascii.eqb Bool.eqb].
    rewrite Hl. unfold colours at 1. cbn [jiter]. fold shade. rewrite replace_ok. fold (colours (with_brightness shade l)).
    unfold send. rewrite Hv. rewrite <- app_assoc. reflexivity.
Qed.
Print Assumptions effect_select_partial.
Definition demo : list row :=
  [("L1", "Party", [("id", JStr "L1"); ("scene_name", JStr ""); ("color_status_list", colours [(JInt 100, JInt 0, JInt 0, JInt 2700)])]);
   ("L2", "Test", [("id", JStr "L2"); ("scene_name", JStr "VGVzdA=="); ("color_status_list", colours [(JInt 33, JInt 321, JInt 99, JInt 0)])]);
   ("L3", "Sunset 1", [("id", JStr "L3"); ("scene_name", JStr "Sunset 1")])].
Lemma ascii_text : forall s, forallb is_ascii (list_ascii_of_string s) = true -> is_text s.
Proof.
  intros s H. exists (map bval (list_ascii_of_string s)). induction (list_ascii_of_string s) as [|c l IH]; [split; [constructor|reflexivity]|].
  cbn [forallb] in H. apply andb_true_iff in H as [Hc H]. destruct (IH H) as [I1 I2]. unfold is_ascii, in_range in Hc. apply andb_true_iff in Hc as [_ Hc].
  apply N.leb_le in Hc. cbn [map flat_map]. split.
  - constructor; [left; lia|exact I1].
  - unfold utf8_of at 1. replace (bval c <? 128)%N with true by (symmetry; apply N.ltb_lt; lia). cbn [app]. rewrite <- I2.
    unfold byte_of, bval. rewrite ascii_N_embedding. reflexivity.
Qed.
Example demo_ok : Forall row_ok demo /\ NoDup (map row_id demo) /\ NoDup (map row_name demo) /\ ~ In "Off" (map row_name demo).
Proof.
  split; [|split; [|split]].
  - repeat apply Forall_cons; try apply Forall_nil; (split; [reflexivity|]).
    + exists "". split; [reflexivity|]. apply built_in. cbn. tauto.
    + exists "VGVzdA==". split; [reflexivity|]. change "VGVzdA==" with (b64 "Test"). apply encoded; [discriminate|]. apply ascii_text. reflexivity.
    + exists "Sunset 1". split; [reflexivity|]. apply plain; [discriminate| |discriminate].
      cbn. repeat (constructor; [split; [reflexivity|discriminate]|]). constructor.
  - cbn. repeat constructor; cbn; intuition discriminate.
  - cbn. repeat constructor; cbn; intuition discriminate.
  - cbn. intuition discriminate.
Qed.
(** A plain name that happens to be base64 is misread, or fails the update. *)
Theorem effect_plain_refuted :
  (exists e, effect_hook [[("id", JStr "L1"); ("scene_name", JStr "Zm9v")]] None = Ok e /\ f_list e = ["Off"; "foo"]) /\
  effect_hook [[("id", JStr "L1"); ("scene_name", JStr "Test")]] None = Err PyUnicode.
Proof. split; [eexists; split; vm_compute; reflexivity|vm_compute; reflexivity]. Qed.
Print Assumptions effect_plain_refuted.
(** So, with a device that keeps what it is sent, changing the brightness of an effect can make
    the effects unreadable: the name is sent back in plain. *)
Theorem effect_rename_refuted : forall reply, exists rule e sent,
  effect_hook [rule] None = Ok e /\ f_list e = ["Off"; "Test"] /\
  fst (set_effect_brightness reply e "L2" 50 []) = [mkCmd "edit_dynamic_light_effect_rule" sent] /\
  effect_hook [sent] None = Err PyUnicode.
Proof.
  intro reply. exists (row_rule (nth 1 demo ("", "", []))). eexists. eexists. split; [vm_compute; reflexivity|].
  split; [reflexivity|]. split; [reflexivity|]. vm_compute. reflexivity.
Qed.
Print Assumptions effect_rename_refuted.
(** Of two effects with the same name only the last can be selected. *)
Theorem effect_same_name_refuted : exists rules e,
  effect_hook rules None = Ok e /\ f_list e = ["Off"; "foo"; "foo"] /\ dget "foo" (f_ids e) = Some "L4".
Proof.
  exists [[("id", JStr "L3"); ("scene_name", JStr "Zm9v")]; [("id", JStr "L4"); ("scene_name", JStr "Zm9v")]].
  eexists. split; [vm_compute; reflexivity|]. split; reflexivity.
Qed.
Print Assumptions effect_same_name_refuted.
(** Unknown names are rejected and nothing is sent; Off sends one command. *)
Theorem effect_unknown : forall reply e now b log,
  (forall name, name <> "Off" -> ~ In name (map fst (f_ids e)) -> set_effect reply e now name b log = (log, Err PyValueError)) /\
  let off := mkCmd "set_dynamic_light_effect_rule_enable" [("enable", JBool false)] in
  set_effect reply e now "Off" b log = (log ++ [off], reply off).
Proof.
  intros reply e now b log. split; [|reflexivity]. intros name N F. unfold set_effect, OFF.
  apply String.eqb_neq in N. rewrite N. replace (dmem name (f_ids e)) with false; [reflexivity|].
  symmetry. destruct (dmem name (f_ids e)) eqn:E; [|reflexivity]. apply dmem_In in E. contradiction.
Qed.
Print Assumptions effect_unknown.

(** ** C76 *)
(** One command, whose parameters contain at least these. *)
Definition sets (reply : cmd -> res json) (m : M (list cmd) json) (l : list (string * json)) (d : dict json) : Prop :=
  (forall log, m log = (log ++ [mkCmd "set_lighting_effect" d], reply (mkCmd "set_lighting_effect" d))) /\
  (forall k v, In (k, v) l -> dget k d = Some v).
Lemma effect_get : forall extra n, dget "name" (effect_dict extra n) = Some (JStr n) /\ dget "enable" (effect_dict extra n) = Some (JInt 1) /\ dget "custom" (effect_dict extra n) = Some (JInt 0).
Proof. intros. unfold effect_dict. rewrite !dget_dset. repeat split. Qed.
Lemma opt_get : forall k k' v d, k <> k' -> dget k (opt_set k' v d) = dget k d.
Proof. intros k k' [v|] d N; [|reflexivity]. cbn. apply dget_dset_other, N. Qed.
(** The effects a strip comes with; those marked false are not on legacy strips. *)
Definition strip_effects : list (string * bool) :=
  [("Aurora", true); ("Bubbling Cauldron", true); ("Candy Cane", true); ("Christmas", true); ("Flicker", true);
   ("Grandma's Christmas Lights", false); ("Hanukkah", true); ("Haunted Mansion", true); ("Icicle", true); ("Lightning", true);
   ("Ocean", true); ("Rainbow", true); ("Raindrop", true); ("Spring", true); ("Sunrise", false); ("Sunset", false); ("Valentines", true)].
Definition offers (n : string) : Prop := In n (map fst strip_effects).
Definition legacy_offers (n : string) : Prop := In n (map fst (filter snd strip_effects)).
(** Selecting a listed effect sends it with the requested brightness and transition, and a
    device that keeps what it is sent then reports it; other names are rejected. *)
Lemma strip_select_lemma : forall reply extra eff now n b t,
  (In n names_v2 -> exists d, sets reply (set_strip_effect reply extra eff now n b t)
      ([("name", JStr n); ("enable", JInt 1)] ++
       match b with Some b => [("brightness", JInt b)] | None => if now =? 0 then [] else [("brightness", JInt now)] end ++
       match t with Some t => [("transition", JInt t)] | None => [] end) d /\ strip_effect d = Ok n) /\
  (n <> "Off" -> ~ In n names_v2 -> rejects (set_strip_effect reply extra eff now n b t)).
Proof.
  intros reply extra eff now n b t. unfold set_strip_effect, OFF. split.
  - intro Hn. assert (E : String.eqb n "Off" = false).
    { apply String.eqb_neq. intros ->. cbn in Hn. decompose [or] Hn; discriminate || contradiction. }
    pose proof Hn as Hs. apply smem_in in Hs. rewrite E, Hs. cbn [negb]. eexists. split.
    + split; [intro log; reflexivity|]. intros k v Hk. destruct (effect_get extra n) as (G1 & G2 & _).
      destruct Hk as [[= <- <-]|[[= <- <-]|Hk]]; [rewrite !opt_get by discriminate; exact G1|rewrite !opt_get by discriminate; exact G2|].
      apply in_app_or in Hk as [[]|Hk]; apply in_app_or in Hk as [Hk|Hk].
      * rewrite opt_get. 
        -- destruct b as [b|]; [|destruct (now =? 0); [destruct Hk|]]; cbn in Hk; destruct Hk as [[= <- <-]|[]]; cbn [opt_set]; apply dget_dset_same.
        -- destruct b as [b|]; [|destruct (now =? 0); [destruct Hk|]]; cbn in Hk; destruct Hk as [[= <- <-]|[]]; discriminate.
      * destruct t as [t|]; [|destruct Hk]. destruct Hk as [[= <- <-]|[]]. cbn [opt_set]. apply dget_dset_same.
    + destruct (effect_get extra n) as (G1 & G2 & _). unfold strip_effect, str_item, dindex. rewrite !opt_get by discriminate. rewrite G1, G2. cbn [bind truthy].
      assert (S : smem n (OFF :: names_v2) = true) by (unfold smem in *; cbn [existsb]; apply orb_true_iff; right; exact Hs). rewrite S. reflexivity.
  - intros N F log. apply String.eqb_neq in N. rewrite N. destruct (smem n names_v2) eqn:S; [apply smem_in in S; contradiction|reflexivity].
Qed.
Theorem strip_select : forall reply extra eff now n b t,
  (offers n -> exists d, sets reply (set_strip_effect reply extra eff now n b t)
      ([("name", JStr n); ("enable", JInt 1)] ++
       match b with Some b => [("brightness", JInt b)] | None => if now =? 0 then [] else [("brightness", JInt now)] end ++
       match t with Some t => [("transition", JInt t)] | None => [] end) d /\ strip_effect d = Ok n) /\
  (n <> "Off" -> ~ offers n -> rejects (set_strip_effect reply extra eff now n b t)).
Proof. exact strip_select_lemma. Qed.
Print Assumptions strip_select.
(** What is shown as the effect of a strip: the name of a listed effect, the name of a custom one
    ("Custom" if it has none), and Off for everything else. *)
Lemma strip_reads_lemma : forall eff n on custom,
  dget "name" eff = Some (JStr n) -> dget "enable" eff = Some (JInt on) -> dget "custom" eff = Some (JInt custom) ->
  (on = 0 -> strip_effect eff = Ok "Off") /\
  (on <> 0 -> In n names_v2 -> strip_effect eff = Ok n) /\
  (on <> 0 -> ~ In n names_v2 -> custom = 0 -> strip_effect eff = Ok "Off") /\
  (on <> 0 -> ~ In n names_v2 -> custom <> 0 -> n <> "" -> strip_effect eff = Ok n) /\
  (on <> 0 -> custom <> 0 -> n = "" -> strip_effect eff = Ok "Custom").
Proof.
  intros eff n on custom Hn Ho Hc. unfold strip_effect, str_item, dindex. rewrite Hn, Ho, Hc. cbn [bind truthy].
  assert (T : forall z, z <> 0 -> negb (z =? 0) = true) by (intros z Hz; apply negb_true_iff, Z.eqb_neq, Hz).
  split; [|split; [|split; [|split]]].
  - intros ->. reflexivity.
  - intros H Hi. rewrite (T _ H). assert (S : smem n (OFF :: names_v2) = true) by (apply smem_in; now right). rewrite S. reflexivity.
  - intros H Hi ->. rewrite (T _ H). destruct (smem n (OFF :: names_v2)) eqn:S; [|reflexivity].
    apply smem_in in S. destruct S as [<-|S]; [reflexivity|contradiction].
  - intros H Hi Hk Hz. rewrite (T _ H), (T _ Hk). cbn [andb]. apply String.eqb_neq in Hz. rewrite Hz.
    destruct (smem n (OFF :: names_v2)); reflexivity.
  - intros H Hk ->. rewrite (T _ H), (T _ Hk). reflexivity.
Qed.
Theorem strip_reads : forall eff n on custom,
  dget "name" eff = Some (JStr n) -> dget "enable" eff = Some (JInt on) -> dget "custom" eff = Some (JInt custom) ->
  (on = 0 -> strip_effect eff = Ok "Off") /\
  (on <> 0 -> offers n -> strip_effect eff = Ok n) /\
  (on <> 0 -> ~ offers n -> custom = 0 -> strip_effect eff = Ok "Off") /\
  (on <> 0 -> ~ offers n -> custom <> 0 -> n <> "" -> strip_effect eff = Ok n) /\
  (on <> 0 -> custom <> 0 -> n = "" -> strip_effect eff = Ok "Custom").
Proof. exact strip_reads_lemma. Qed.
Print Assumptions strip_reads.
Example strip_reads_ex : strip_effect [("name", JStr "Mine"); ("enable", JInt 1); ("custom", JInt 0)] = Ok "Off".
Proof. reflexivity. Qed.
(** Off, or a brightness of zero or less, disables the effect, and the device then reports Off. *)
Theorem strip_off : forall reply extra eff now b t n c z, strip_effect eff = Ok c -> z <= 0 ->
  (n = "Off" -> exists d, sets reply (set_strip_effect reply extra eff now n b t) [("enable", JInt 0)] d /\ strip_effect d = Ok "Off") /\
  (exists d, sets reply (set_strip_brightness reply extra eff z) [("enable", JInt 0)] d /\ strip_effect d = Ok "Off").
Proof.
  intros reply extra eff now b t n c z H Hz.
  assert (D : exists d, sets reply (set_strip_effect reply extra eff now "Off" b t) [("enable", JInt 0)] d /\ strip_effect d = Ok "Off").
  { exists (off_dict extra names_v2 c). split.
    - split; [intro log; unfold set_strip_effect; cbn [String.eqb Ascii.eqb Bool.eqb OFF]; unfold mbind, mlift; rewrite H; reflexivity|].
      intros k v [[= <- <-]|[]]. unfold off_dict. apply dget_dset_same.
    - unfold strip_effect, str_item, dindex, off_dict. rewrite !dget_dset. cbn [String.eqb Ascii.eqb Bool.eqb].
      rewrite (proj1 (effect_get extra _)). reflexivity. }
  split; [intros ->; exact D|]. unfold set_strip_brightness. replace (z <=? 0) with true by (symmetry; apply Z.leb_le, Hz).
  destruct D as (d & D1 & D2). exists d. split; [|exact D2].
  destruct D1 as [D1 D3]. split; [|exact D3]. intro log. rewrite <- D1. reflexivity.
Qed.
Print Assumptions strip_off.
(** The same for legacy strips. *)
Lemma iot_strip_select_lemma : forall reply extra eff n b t,
  (In n names_v1 -> exists d, sets reply (set_iot_effect reply extra eff n b t)
      ([("name", JStr n); ("enable", JInt 1)] ++
       match b with Some b => [("brightness", JInt b)] | None => [] end ++
       match t with Some t => [("transition", JInt t)] | None => [] end) d /\ iot_effect d = Ok n) /\
  (n <> "Off" -> ~ In n names_v1 -> rejects (set_iot_effect reply extra eff n b t)) /\
  (forall c, iot_effect eff = Ok c ->
     exists d, sets reply (set_iot_effect reply extra eff "Off" b t) [("enable", JInt 0)] d /\ iot_effect d = Ok "Off").
Proof.
  intros reply extra eff n b t. unfold set_iot_effect, OFF. split; [|split].
  - intro Hn. assert (E : String.eqb n "Off" = false).
    { apply String.eqb_neq. intros ->. cbn in Hn. decompose [or] Hn; discriminate || contradiction. }
    pose proof Hn as Hs. apply smem_in in Hs. rewrite E, Hs. cbn [negb]. eexists. split.
    + split; [intro log; reflexivity|]. intros k v Hk. destruct (effect_get extra n) as (G1 & G2 & _).
      destruct Hk as [[= <- <-]|[[= <- <-]|Hk]]; [rewrite !opt_get by discriminate; exact G1|rewrite !opt_get by discriminate; exact G2|].
      apply in_app_or in Hk as [[]|Hk]; apply in_app_or in Hk as [Hk|Hk].
      * rewrite opt_get.
        -- destruct b as [b|]; [|destruct Hk]; destruct Hk as [[= <- <-]|[]]; cbn [opt_set]; rewrite dget_dset_same; reflexivity.
        -- destruct b as [b|]; [|destruct Hk]; destruct Hk as [[= <- <-]|[]]; discriminate.
      * destruct t as [t|]; [|destruct Hk]. destruct Hk as [[= <- <-]|[]]. cbn [opt_set]. apply dget_dset_same.
    + destruct (effect_get extra n) as (G1 & G2 & _). unfold iot_effect, str_item, dindex. rewrite !opt_get by discriminate. rewrite G1, G2. cbn [bind truthy].
      assert (S : String.eqb n "" = false) by (apply String.eqb_neq; intros ->; cbn in Hn; decompose [or] Hn; discriminate || contradiction).
      rewrite S. reflexivity.
  - intros N F log. apply String.eqb_neq in N. rewrite N. destruct (smem n names_v1) eqn:S; [apply smem_in in S; contradiction|reflexivity].
  - intros c H. exists (off_dict extra names_v1 c). split.
    + split; [intro log; cbn [String.eqb Ascii.eqb Bool.eqb]; unfold mbind, mlift; rewrite H; reflexivity|].
      intros k v [[= <- <-]|[]]. unfold off_dict. apply dget_dset_same.
    + unfold iot_effect, str_item, dindex, off_dict. rewrite !dget_dset. cbn [String.eqb Ascii.eqb Bool.eqb].
      rewrite (proj1 (effect_get extra _)). reflexivity.
Qed.
Theorem iot_strip_select : forall reply extra eff n b t,
  (legacy_offers n -> exists d, sets reply (set_iot_effect reply extra eff n b t)
      ([("name", JStr n); ("enable", JInt 1)] ++
       match b with Some b => [("brightness", JInt b)] | None => [] end ++
       match t with Some t => [("transition", JInt t)] | None => [] end) d /\ iot_effect d = Ok n) /\
  (n <> "Off" -> ~ legacy_offers n -> rejects (set_iot_effect reply extra eff n b t)) /\
  (forall c, iot_effect eff = Ok c ->
     exists d, sets reply (set_iot_effect reply extra eff "Off" b t) [("enable", JInt 0)] d /\ iot_effect d = Ok "Off").
Proof. exact iot_strip_select_lemma. Qed.
Print Assumptions iot_strip_select.
Example strip_ex : exists c, strip_effect [("name", JStr "Ocean"); ("enable", JInt 1); ("custom", JInt 0)] = Ok c.
Proof. eexists. reflexivity. Qed.
