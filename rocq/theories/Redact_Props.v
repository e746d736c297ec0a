(** Properties C10, C11: redaction before logging. *)
From Verif Require Import Base Base_Lemmas Py Redact_Model Redact_Spec Redact_Proofs.
Open Scope string_scope.

(** * C10 *)

(** Every position not at or below a sensitive key is still there with the same
    scalar value, the same keys, or the same length. *)
Theorem redact_keeps_rest : forall tbl p v x,
  clean tbl p -> at_path p v = Some x ->
  exists y, at_path p (redact_data tbl v) = Some y /\ shape_of y = shape_of x.
Proof. exact redact_keeps_rest_lemma. Qed.
Print Assumptions redact_keeps_rest.

(** ... and no position appears. *)
Theorem redact_adds_nothing : forall tbl p v,
  clean tbl p -> at_path p v = None -> at_path p (redact_data tbl v) = None.
Proof. exact redact_adds_nothing_lemma. Qed.
Print Assumptions redact_adds_nothing.

(** A value under a sensitive key, at any depth, is replaced by what its masking
    function returns, by a placeholder if that raises, or by a placeholder if the
    key has no masking function; null and "" stay. *)
Theorem redact_masks : forall tbl p k r v x,
  clean tbl p -> dget k tbl = Some r -> at_path (p ++ [Key k])%list v = Some x ->
  (blank x -> at_path (p ++ [Key k])%list (redact_data tbl v) = Some x) /\
  (~ blank x -> at_path (p ++ [Key k])%list (redact_data tbl v)
     = Some (match r with
             | None => JStr "**REDACTED**"
             | Some f => match f x with Ok m => m | Err _ => JStr "**REDACTEX**" end
             end)).
Proof.
  intros tbl p k r v x Hc Hk Hx. rewrite (redact_masks_lemma tbl p k r v x Hc Hk Hx).
  rewrite <- skipped_blank. destruct (skipped x); split; intro H;
    [reflexivity | now elim H | discriminate | reflexivity].
Qed.
Print Assumptions redact_masks.

(** Non-interference: if the masks treat [alike] values the same, then two
    values that differ only below sensitive keys, in alike values, have the same
    redaction: nothing about the difference reaches the log. *)
Theorem redact_hides : forall tbl (alike : string -> json -> json -> Prop),
  (forall k r x y, dget k tbl = Some r -> alike k x y -> apply_redactor r x = apply_redactor r y) ->
  forall v v', differ_only_in_secrets tbl alike v v' -> redact_data tbl v = redact_data tbl v'.
Proof. exact redact_hides_lemma. Qed.
Print Assumptions redact_hides.

(** The two real tables hide coordinates, names, SSIDs, serials, maps and account
    names completely, at any depth. *)
Theorem smart_redaction_hides : forall v v',
  differ_only_in_secrets smart_redactors (any_secret smart_hidden) v v' ->
  redact_data smart_redactors v = redact_data smart_redactors v'.
Proof. apply redact_hides_lemma. exact smart_hidden_lemma. Qed.
Print Assumptions smart_redaction_hides.

Theorem iot_redaction_hides : forall v v',
  differ_only_in_secrets iot_redactors (any_secret iot_hidden) v v' ->
  redact_data iot_redactors v = redact_data iot_redactors v'.
Proof. apply redact_hides_lemma. exact iot_hidden_lemma. Qed.
Print Assumptions iot_redaction_hides.

Lemma layout_masked s t : same_layout s t ->
  smap (fun c => if word_char c then "0"%char else c) s = smap (fun c => if word_char c then "0"%char else c) t.
Proof.
  induction 1 as [|c d s t [->|[Hc Hd]] _ IH]; [reflexivity| |]; cbn [smap]; rewrite IH; [reflexivity|].
  now rewrite (wordlike_masked _ Hc), (wordlike_masked _ Hd).
Qed.
(** Setup codes: only the layout shows. *)
Theorem smart_setup_code_hidden : forall k s t,
  In k ["setup_code"; "setup_payload"; "mfi_setup_code"; "mfi_setup_id"; "mfi_token_token"; "mfi_token_uuid"] ->
  same_layout s t ->
  redact_data smart_redactors (JObj [(k, JStr s)]) = redact_data smart_redactors (JObj [(k, JStr t)]).
Proof.
  intros k s t Hk Hs. rewrite !redact_obj. cbn [map fst snd]. do 3 f_equal.
  assert (Hb : skipped (JStr s) = skipped (JStr t)) by (now inversion Hs).
  unfold entry. rewrite Hb. destruct (skipped (JStr t)) eqn:Et.
  { apply skipped_blank in Et, Hb. destruct Et as [Et|Et], Hb as [Hb|Hb]; congruence. }
  assert (E : dget k smart_redactors = Some (Some zero_words)).
  { cbn [In] in Hk. repeat (destruct Hk as [<-|Hk]; [reflexivity|]). contradiction. }
  rewrite E. cbn [apply_redactor zero_words on_str]. now rewrite (layout_masked _ _ Hs).
Qed.
Print Assumptions smart_setup_code_hidden.
Example setup_code_ex : same_layout "MT:4-ZZ_9" "NT:0-Qa01".
Proof. repeat (constructor; [try (left; reflexivity); right; split; left; cbn; tauto|]). constructor. Qed.

(** Device, hardware, firmware and OEM ids are not hidden: everything after the
    ninth character is logged. *)
Theorem redact_id_tail_refuted : exists k s t,
  In k (dkeys smart_redactors) /\ s <> t /\ String.length s = String.length t /\
  redact_data smart_redactors (JObj [(k, JStr s)]) <> redact_data smart_redactors (JObj [(k, JStr t)]) /\
  redact_data smart_redactors (JObj [(k, JStr s)]) = JObj [(k, JStr ("REDACTED_" ++ sdrop 9 s))].
Proof.
  exists "device_id", "8012F1A2B3C4D5E6F708", "8012F1A2B3C4D5E6F709".
  split; [vm_compute; tauto|]. repeat split; try discriminate; vm_compute; discriminate.
Qed.
Print Assumptions redact_id_tail_refuted.

(** ... and that is all that shows of them. *)
Theorem redact_id_head_hidden : forall k s, s <> "" ->
  let shown := JObj [(k, JStr ("REDACTED_" ++ sdrop 9 s))] in
  (In k ["device_id"; "parent_device_id"; "original_device_id"; "oem_id"; "hw_id"; "fw_id"; "dev_id"; "ext_addr"] ->
     redact_data smart_redactors (JObj [(k, JStr s)]) = shown) /\
  (In k ["deviceId"; "oemId"; "hwId"] -> redact_data iot_redactors (JObj [(k, JStr s)]) = shown).
Proof.
  intros k s N shown. destruct s as [|c s]; [now contradiction N|].
  split; intro H; cbn [In] in H; repeat (destruct H as [<-|H]; [reflexivity|]); contradiction.
Qed.
Print Assumptions redact_id_head_hidden.

(** The entry of a legacy strip's socket keeps what its other sensitive keys hold. *)
Theorem redact_children_refuted : exists v p s,
  at_path p v = Some (JStr s) /\ In (Key "mac") p /\
  at_path p (redact_data iot_redactors v) = Some (JStr s).
Proof.
  exists (JObj [("children", JArr [JObj [("id", JStr "00"); ("mac", JStr "B09575AABBCC")]])]).
  exists [Key "children"; Idx 0; Key "mac"], "B09575AABBCC".
  split; [reflexivity|]. split; [cbn; tauto|]. vm_compute. reflexivity.
Qed.
Print Assumptions redact_children_refuted.

Example redact_ex :
  redact_data smart_redactors
    (JObj [("result", JArr [JObj [("nickname", JStr "cGx1Zw=="); ("device_on", JBool true); ("ssid", JStr "")]]);
           ("mac", JStr "B0-95-75-AA-BB-CC"); ("latitude", JInt 5234)])
  = JObj [("result", JArr [JObj [("nickname", JStr "I01BU0tFRF9OQU1FIw=="); ("device_on", JBool true); ("ssid", JStr "")]]);
          ("mac", JStr "B0-95-75-00-00-00"); ("latitude", JInt 0)].
Proof. vm_compute. reflexivity. Qed.

Example redact_hides_ex : exists v v', v <> v' /\
  differ_only_in_secrets smart_redactors (any_secret smart_hidden) v v'.
Proof.
  exists (JArr [JObj [("x", JObj [("nickname", JStr "a")])]]), (JArr [JObj [("x", JObj [("nickname", JStr "b")])]]).
  split; [discriminate|].
  apply DS_list. constructor; [|constructor]. apply DS_dict. constructor; [|constructor].
  split; [reflexivity|]. right; left. split; [reflexivity|]. apply DS_dict. constructor; [|constructor].
  split; [reflexivity|]. right; right. cbn [fst snd].
  split; [discriminate|]. split; [intros [H|H]; discriminate|]. split; [intros [H|H]; discriminate|].
  split; [vm_compute; tauto | reflexivity].
Qed.

(** * C11 *)

(** In the three usual formats the vendor half stays and the device half becomes zeros. *)
Theorem mask_mac_formats : forall f v d, octets v -> octets d -> known_delim f ->
  mask_mac (mac_text f v d) = mac_text f v ("00", "00", "00").
Proof. exact mask_mac_lemma. Qed.
Print Assumptions mask_mac_formats.

(** Hence equal vendor and format give equal masks. *)
Theorem mask_mac_hides_device : forall f v d d', octets v -> octets d -> octets d' -> known_delim f ->
  mask_mac (mac_text f v d) = mask_mac (mac_text f v d').
Proof. intros. rewrite !mask_mac_lemma by assumption. reflexivity. Qed.
Print Assumptions mask_mac_hides_device.

(** For an arbitrary text, the mask depends on nothing beyond its first eight
    characters, whether it has 12 characters and whether it has a colon. *)
Theorem mask_mac_depends : forall m m',
  Nat.eqb (String.length m) 12 = Nat.eqb (String.length m') 12 ->
  smem_char ":" m = smem_char ":" m' ->
  stake 8 m = stake 8 m' -> mask_mac m = mask_mac m'.
Proof. exact mask_mac_depends_lemma. Qed.
Print Assumptions mask_mac_depends.

Example mask_mac_ex :
  map mask_mac ["B09575AABBCC"; "B0:95:75:AA:BB:CC"; "B0-95-75-AA-BB-CC"]
  = ["B09575000000"; "B0:95:75:00:00:00"; "B0-95-75-00-00-00"].
Proof. vm_compute. reflexivity. Qed.
Example mask_mac_hyp : octets ("B0", "95", "75").
Proof.
  assert (H : forall a b, a <> ":"%char -> b <> ":"%char -> octet (String a (String b ""))).
  { intros a b Ha Hb. split; [reflexivity|]. intros c. cbn. rewrite orb_false_r.
    intro H. apply orb_true_iff in H. destruct H as [H|H]; apply Ascii.eqb_eq in H; subst; assumption. }
  repeat split; apply H; discriminate.
Qed.
