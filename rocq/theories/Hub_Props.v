(** Properties C115 and C116: children behind a hub. *)
From Verif Require Import Base Base_Lemmas Py Crypto_Model Codes_Model Retry_Model Smart_Model Smart_Spec Smart_Proofs Child_Model Child_Spec Child_Proofs
  CamQuery_Model Hub_Model Stack_Spec Hub_Spec Hub_Proofs Stack_Props.
From Verif Require Klap_Model Klap_Spec KlapPeer_Spec KlapPeer_Props Aes_Model Aes_Props AesPeer_Spec AesPeer_Props
  Cam_Model Cam_Spec CamPeer_Spec CamPeer_Props.
Open Scope string_scope.
Open Scope list_scope.
Open Scope Z_scope.

(** ** C115.  A query to a child is one message to the hub, makes the child act once on each method, in
    order, and has the result of calling the child. *)
Theorem child_as_called : forall D life act send treset id req rc (w : world D),
  0 <= rc -> proper req -> relays life act send id req ->
  child_over (smart_ask send treset) id req rc w =
  (let (d', r) := call life act id (wdev w) req in (mkW d' (wbatch w) (wlog w ++ [told id req]), [Exec], r)).
Proof. intros. apply child_through; assumption. Qed.
Print Assumptions child_as_called.
Theorem cam_child_as_called : forall D life act send treset id l rc (w : world D),
  0 <= rc -> proper (CDict l) -> cam_relays life act send id l ->
  cam_child_over (fun d rc => cam_ask send treset (QDict d) rc) id (CDict l) rc w =
  (let (d', r) := call life act id (wdev w) (CDict l) in (mkW d' (wbatch w) (wlog w), [Exec], r)).
Proof. intros. apply cam_child_through; assumption. Qed.
Print Assumptions cam_child_as_called.
(** A child of a camera hub is asked with parameters only: a method by name alone is refused, and nothing is sent. *)
Theorem cam_child_by_name : forall D send treset id m rc (w : world D),
  cam_child_over (fun d rc => cam_ask send treset (QDict d) rc) id (CName m) rc w = (w, [], Err KKasa).
Proof. reflexivity. Qed.
Print Assumptions cam_child_by_name.
(** Programs that talk to a hub and its children *)
Theorem hub_program : forall D life act send treset qs (w : world D), relayed_all life act send qs ->
  ask_all (through send treset) w qs = ask_all (at_hand life act send treset) w qs.
Proof. intros. apply all_through; assumption. Qed.
Print Assumptions hub_program.
Theorem cam_hub_program : forall D life act send treset qs (w : world D), cam_relayed_all life act send qs ->
  ask_all (cam_through send treset) w qs = ask_all (cam_at_hand life act send treset) w qs.
Proof. intros. apply cam_all_through; assumption. Qed.
Print Assumptions cam_hub_program.

(** ** The same through the transports.  [kid]: how a child acts inside the hub's device. *)
Definition ticks {S C} (script : nat -> (S -> S) * C) (d : S * nat) : S * nat := (fst (script (snd d)) (fst d), Datatypes.S (snd d)).
Definition inside {S} (kid : string -> S -> string -> option json -> S * answer) (id : string) (d : S * nat) (m : string) (p : option json)
  : (S * nat) * answer := let (s', a) := kid id (fst d) m p in ((s', snd d), a).

Theorem whole_klap_hub : forall md5 sha1 sha256 enc_block dec_block json_loads S app auth c encode script kid x b qs w' rs y o,
  let direct := direct_send _ S _ _ encode as_dict script app (KlapPeer_Spec.understood json json_loads) in
  Klap_Spec.crypto_ok sha256 enc_block dec_block ->
  In auth (Klap_Model.candidates md5 sha1 sha256 c) ->
  klap_fresh md5 sha1 sha256 enc_block dec_block json_loads S app auth c x ->
  relayed_all (ticks script) (inside kid) direct qs ->
  ask_all (through (stack_send _ _ S _ _ (klap_client md5 sha1 sha256 enc_block dec_block json_loads c) encode as_dict script)
             (stack_reset _ _ S Klap_Model.klap_reset))
    (mkW (mkStack (fst x) 0 []) b []) qs = (w', rs) ->
  KlapPeer_Spec.together md5 sha1 sha256 enc_block dec_block json json_loads S app auth c
    x (klap_happenings (k_trace (wdev w'))) y o ->
  KlapPeer_Spec.all_healthy sha256 S auth (klap_happenings (k_trace (wdev w'))) ->
  exists v', ask_all (at_hand (ticks script) (inside kid) direct (fun y => y)) (mkW (KlapPeer_Spec.dv_state (snd x), 0%nat) b []) qs = (v', rs) /\
  fst (wdev v') = KlapPeer_Spec.dv_state (snd y) /\ wlog v' = wlog w'.
Proof.
  intros md5 sha1 sha256 enc_block dec_block json_loads S app auth c encode script kid x b qs w' rs y o direct H1 H2 H3 H4 H5 H6 H7.
  rewrite through_wrapped in H5. destruct (ask_all _ _ _) as [w1 rs1] eqn:E in H5. injection H5 as -> <-.
  destruct (whole_klap_smart _ _ _ _ _ _ _ _ _ _ _ _ _ _ _ _ _ _ _ H1 H2 H3 E H6 H7) as (v' & Hv & Hs & Hl).
  exists v'. split; [|split; assumption]. rewrite <- all_through by exact H4. rewrite through_wrapped. unfold direct. now rewrite Hv.
Qed.
Print Assumptions whole_klap_hub.
Theorem whole_aes_hub : forall enc_block dec_block json_loads open_key login_text S app accepts welcome refusal encode script kid x b qs w' rs y o,
  let direct := direct_send _ S _ _ encode as_dict script app (AesPeer_Spec.understood json_loads) in
  Aes_Props.cipher_ok enc_block dec_block ->
  AesPeer_Spec.speaks json_loads S app welcome refusal ->
  AesPeer_Spec.knows login_text accepts ->
  aes_fresh enc_block dec_block json_loads open_key login_text S app accepts welcome refusal x ->
  relayed_all (ticks script) (inside kid) direct qs ->
  ask_all (through (stack_send _ _ S _ _ (aes_client enc_block dec_block json_loads open_key login_text) encode as_dict script)
             (stack_reset _ _ S Aes_Model.reset))
    (mkW (mkStack (fst x) 0 []) b []) qs = (w', rs) ->
  AesPeer_Spec.together enc_block dec_block json_loads open_key login_text S app accepts welcome refusal
    x (aes_happenings (k_trace (wdev w'))) y o ->
  AesPeer_Spec.all_healthy S (aes_happenings (k_trace (wdev w'))) ->
  exists v', ask_all (at_hand (ticks script) (inside kid) direct (fun y => y)) (mkW (AesPeer_Spec.dv_state (snd x), 0%nat) b []) qs = (v', rs) /\
  fst (wdev v') = AesPeer_Spec.dv_state (snd y) /\ wlog v' = wlog w'.
Proof.
  intros enc_block dec_block json_loads open_key login_text S app accepts welcome refusal encode script kid x b qs w' rs y o direct H1 H2 H3 H3' H4 H5 H6 H7.
  rewrite through_wrapped in H5. destruct (ask_all _ _ _) as [w1 rs1] eqn:E in H5. injection H5 as -> <-.
  destruct (whole_aes_smart _ _ _ _ _ _ _ _ _ _ _ _ _ _ _ _ _ _ _ H1 H2 H3 H3' E H6 H7) as (v' & Hv & Hs & Hl).
  exists v'. split; [|split; assumption]. rewrite <- all_through by exact H4. rewrite through_wrapped. unfold direct. now rewrite Hv.
Qed.
Print Assumptions whole_aes_hub.
Theorem whole_cam_hub : forall enc_block dec_block json_loads md5_hex sha256_hex sha256 str_int str_json wrap cfg user pass S app encode script kid x b qs w' rs y o,
  let direct := direct_send _ S _ _ encode as_dict script app (CamPeer_Spec.understood json_loads) in
  Aes_Props.cipher_ok enc_block dec_block ->
  (forall b, length (sha256 b) = 32%nat) ->
  (forall s, str_json (JStr s) = s) ->
  CamPeer_Spec.speaks json_loads S app ->
  CamPeer_Spec.knows md5_hex sha256_hex cfg user pass ->
  cam_fresh enc_block dec_block json_loads md5_hex sha256_hex sha256 str_int str_json wrap cfg user pass S app x ->
  cam_relayed_all (ticks script) (inside kid) direct qs ->
  ask_all (cam_through (stack_send _ _ S _ _ (cam_client enc_block dec_block json_loads md5_hex sha256_hex sha256 str_int str_json wrap cfg) encode as_dict script)
             (stack_reset _ _ S Cam_Model.reset))
    (mkW (mkStack (fst x) 0 []) b []) qs = (w', rs) ->
  CamPeer_Spec.together enc_block dec_block json_loads md5_hex sha256_hex sha256 str_int str_json wrap cfg user pass S app
    x (cam_happenings (k_trace (wdev w'))) y o ->
  CamPeer_Spec.all_healthy md5_hex sha256_hex cfg S (cam_happenings (k_trace (wdev w'))) ->
  exists v', ask_all (cam_at_hand (ticks script) (inside kid) direct (fun y => y)) (mkW (CamPeer_Spec.dv_state (snd x), 0%nat) b []) qs = (v', rs) /\
  fst (wdev v') = CamPeer_Spec.dv_state (snd y) /\ wlog v' = wlog w'.
Proof.
  intros enc_block dec_block json_loads md5_hex sha256_hex sha256 str_int str_json wrap cfg user pass S app encode script kid x b qs w' rs y o direct
    H1 H1' H1'' H2 H3 H3' H4 H5 H6 H7.
  rewrite cam_through_wrapped in H5. destruct (ask_all _ _ _) as [w1 rs1] eqn:E in H5. injection H5 as -> <-.
  destruct (whole_cam_camera _ _ _ _ _ _ _ _ _ _ _ _ _ _ _ _ _ _ _ _ _ _ _ H1 H1' H1'' H2 H3 H3' E H6 H7) as (v' & Hv & Hs & Hl).
  exists v'. split; [|split; assumption]. rewrite <- cam_all_through by exact H4. rewrite cam_through_wrapped. unfold direct. now rewrite Hv.
Qed.
Print Assumptions whole_cam_hub.

(** ** A hub that relays every proper request *)
Definition say (a : answer) : dict json :=
  match a with AResult j => [("error_code", JInt 0); ("result", j)] | AError c => [("error_code", JInt c)] end.
Definition reply_with (rd : dict json) : dict json := say (AResult (JObj [("responseData", JObj rd)])).
Definition heard (x : json) : string * option json :=
  match x with
  | JObj [(_, JStr m)] => (m, None)
  | JObj [(_, JStr m); (_, p)] => (m, Some p)
  | _ => ("", None)
  end.
Definition model_hub {D} (act : string -> D -> string -> option json -> D * answer) (d : D) (q : request) : D * res (dict json) :=
  match q with
  | Single _ (Some (JObj [(_, JStr id); (_, JObj [(_, JStr m); (_, p)])])) =>
      if String.eqb m "multipleRequest" then
        match p with
        | JObj [(_, JArr xs)] =>
            let (d', r) := acts act id d (map heard xs) in
            (d', Ok (reply_with (say (AResult (JObj [("responses", JArr (map (fun ma => JObj (("method", JStr (fst ma)) :: say (snd ma))) r))])))))
        | _ => (d, Err KTimeout)
        end
      else let (d', a) := act id d m (given p) in (d', Ok (reply_with (say a)))
  | _ => (d, Err KTimeout)
  end.
Definition tidy {D} (act : string -> D -> string -> option json -> D * answer) : Prop := forall id d m p d' a, act id d m p = (d', a) ->
  match a with AResult j => Child_Spec.plain j | AError c => c <> 0 end.
Lemma say_reports a : match a with AResult _ => True | AError c => c <> 0 end -> reports a (say a).
Proof. destruct a as [j|c]; intros H; cbn; auto. Qed.
Lemma acts_tidy {D} act id : tidy act -> forall l d d' r, @acts D act id d l = (d', r) ->
  Forall (fun ma => match snd ma with AResult _ => True | AError c => c <> 0 end) r.
Proof.
  intros Ht. induction l as [|[m p] l IH]; intros d d' r H; cbn in H; [injection H as _ <-; constructor|].
  destruct (act id d m p) as [d1 a] eqn:E1. destruct (acts act id d1 l) as [d2 r2] eqn:E. injection H as _ <-.
  constructor; [|eapply IH, E]. cbn. apply Ht in E1. destruct a; auto.
Qed.
Theorem model_hub_relays : forall D (act : string -> D -> string -> option json -> D * answer) id req,
  tidy act -> proper req -> relays (fun d => d) act (model_hub act) id req.
Proof.
  intros D act id req Ht (Hne & Hnd & Hm) d d' r H.
  assert (One : forall m p, content req = [(m, given p)] -> m <> "multipleRequest" -> told id req = message id m p ->
    exists reply rd, model_hub act d (told id req) = (d', Ok reply) /\ carries rd reply /\ says rd r).
  { intros m p Hc Hq ->. rewrite Hc in H. cbn [acts] in H. destruct (act id d m (given p)) as [d1 a] eqn:E. injection H as <- <-.
    apply String.eqb_neq in Hq. cbn [model_hub message]. rewrite Hq, E. apply Ht in E. do 2 eexists. split; [reflexivity|]. split.
    - eexists. split; [apply say_reports; exact I|]. split; reflexivity.
    - cbn [says]. split; [apply say_reports; destruct a; auto|]. destruct a as [j|c]; [exact E|]. left. reflexivity. }
  destruct req as [m|[|[m p] [|x l]]].
  - apply (One m JNull); [reflexivity|cbn in Hm; tauto|reflexivity].
  - now elim Hne.
  - apply (One m p); [reflexivity|cbn in Hm; tauto|reflexivity].
  - clear One. set (q := (m, p) :: x :: l) in *.
    assert (M : map heard (map (fun kv => JObj (("method", JStr (fst kv)) :: if truthy (snd kv) then [("params", snd kv)] else [])) q) = content (CDict q)).
    { cbn [content]. rewrite map_map. apply map_ext. intros [k v]. cbn [fst snd]. unfold given. destruct (truthy v); reflexivity. }
    assert (T : told id (CDict q) = message id "multipleRequest" (JObj [("requests", JArr (map (fun kv =>
      JObj (("method", JStr (fst kv)) :: if truthy (snd kv) then [("params", snd kv)] else [])) q))])) by reflexivity.
    rewrite T. unfold message, model_hub. change (String.eqb "multipleRequest" "multipleRequest") with true. cbv iota. rewrite M, H.
    do 2 eexists. split; [reflexivity|]. split; [eexists; split; [apply say_reports; exact I|split; reflexivity]|].
    pose proof (acts_names _ _ _ _ _ _ H) as Hn. pose proof (acts_tidy act id Ht _ _ _ _ H) as Hf.
    assert (F : Forall2 item (map (fun ma => JObj (("method", JStr (fst ma)) :: say (snd ma))) r) r).
    { clear - Hf. induction r as [|[k a] r IH]; [constructor|]. inversion Hf; subst. cbn [map]. constructor; [|apply IH; assumption].
      eexists. split; [reflexivity|]. split; [reflexivity|]. cbn in H1. destruct a; cbn; auto. }
    destruct r as [|r1 [|r2 r]]; [discriminate|discriminate|]. destruct r1 as [k a]. cbn [says].
    do 2 eexists. split; [apply say_reports; exact I|]. split; [reflexivity|exact F].
Qed.
Print Assumptions model_hub_relays.

(** ** C116: what queries to a device promise, and queries to children do not keep.  [kid_alone]: the
    same child, were it a device of its own. *)
Definition kid_alone {D} (act : string -> D -> string -> option json -> D * answer) (id : string) (d : D) (q : request) : D * res (dict json) :=
  match q with
  | Single m p => let (d', a) := act id d m p in (d', Ok (say a))
  | Batch _ => (d, Err KTimeout)
  end.
(** A child that is busy once *)
Definition busy_act (id : string) (d : bool) (m : string) (p : option json) : bool * answer :=
  if d then (false, AError (-1001)) else (false, AResult (JObj [("on", JBool true)])).
(** A passing error of a child is not tried again. *)
Theorem child_retry_refuted :
  tidy busy_act /\ (forall id req, proper req -> relays (fun d => d) busy_act (model_hub busy_act) id req) /\
  snd (smart_ask (kid_alone busy_act "C1") (fun d => d) [("get_it", JNull)] 3 (mkW true 5 [])) = Ok [("get_it", RJson (JObj [("on", JBool true)]))] /\
  child_over (smart_ask (model_hub busy_act) (fun d => d)) "C1" (CDict [("get_it", JNull)]) 3 (mkW true 5 []) =
    (mkW false 5 [message "C1" "get_it" JNull], [Exec], Err (KRetry (Some (-1001)))).
Proof.
  assert (T : tidy busy_act).
  { intros id [] m p d' a H; injection H as <- <-; [discriminate|]. right. eexists. split; [reflexivity|exact I]. }
  split; [exact T|]. split; [intros; apply model_hub_relays; assumption|]. split; vm_compute; reflexivity.
Qed.
Print Assumptions child_retry_refuted.
(** A child with a list of five, given two at a time *)
Definition list_act (id : string) (d : unit) (m : string) (p : option json) : unit * answer :=
  let k := match p with Some (JObj [(_, JInt k)]) => Z.to_nat k | _ => 0%nat end in
  (tt, AResult (JObj [("start_index", JInt (Z.of_nat k)); ("sum", JInt 5); ("rules", JArr (firstn 2 (skipn k (map JInt [10; 11; 12; 13; 14]))))])).
(** Of a list served in pages only the first page is returned. *)
Theorem child_pages_refuted :
  tidy list_act /\ (forall id req, proper req -> relays (fun d => d) list_act (model_hub list_act) id req) /\
  (exists e, snd (smart_ask (kid_alone list_act "C1") (fun d => d) [("get_rules", JNull)] 3 (mkW tt 5 [])) = Ok [("get_rules", RJson (JObj e))] /\
     dget "rules" e = Some (JArr (map JInt [10; 11; 12; 13; 14]))) /\
  exists e, snd (child_over (smart_ask (model_hub list_act) (fun d => d)) "C1" (CDict [("get_rules", JNull)]) 3 (mkW tt 5 [])) =
    Ok [("get_rules", RJson (JObj e))] /\ dget "sum" e = Some (JInt 5) /\ dget "rules" e = Some (JArr (map JInt [10; 11])).
Proof.
  assert (T : tidy list_act).
  { intros id [] m p d' a H; injection H as _ <-. right. eexists. split; [reflexivity|exact I]. }
  split; [exact T|]. split; [intros; apply model_hub_relays; assumption|].
  split; eexists; (split; [vm_compute; reflexivity|]); repeat split; vm_compute; reflexivity.
Qed.
Print Assumptions child_pages_refuted.

(** ** Examples *)
(** Children with a counter each *)
Definition count_act (id : string) (d : string -> Z) (m : string) (p : option json) : (string -> Z) * answer :=
  if String.eqb m "bad" then (d, AError (-1002)) else
  let n := d id + match p with Some (JInt k) => k | _ => 1 end in
  ((fun i => if String.eqb i id then n else d i), AResult (JObj [("n", JInt n)])).
Example hub_program_ex :
  let qs := [(ToKid "A" (CDict [("add", JInt 4)]), 3); (ToKid "B" (CDict [("add", JNull); ("bad", JNull); ("more", JInt 7)]), 3);
             (ToKid "A" (CName "bad"), 3); (ToKid "A" (CName "add"), 0)] in
  relayed_all (fun d => d) count_act (model_hub count_act) qs /\
  map snd (snd (ask_all (through (model_hub count_act) (fun d => d)) (mkW (fun _ => 0) 5 []) qs)) =
  [Ok [("add", RJson (JObj [("n", JInt 4)]))];
   Ok [("add", RJson (JObj [("n", JInt 1)])); ("bad", RCode (-1002)); ("more", RJson (JObj [("n", JInt 8)]))];
   Err (KDevice (Some (-1002)));
   Ok [("add", RJson (JObj [("n", JInt 5)]))]].
Proof.
  split; [|vm_compute; reflexivity].
  assert (T : tidy count_act).
  { intros id d m p d' a H. unfold count_act in H. destruct (String.eqb m "bad"); injection H as _ <-; [discriminate|].
    right. eexists. split; [reflexivity|exact I]. }
  repeat constructor; cbn [fst snd]; try lia; try (intros E; discriminate E); try (apply model_hub_relays; [exact T|]); cbn;
    repeat (split || constructor || (intros F; cbn in F; intuition discriminate) || discriminate || lia).
Qed.

(** A hub over each transport, with the devices of the examples for whole queries: the child adds up. *)
Definition xh_kid (id : string) (s : nat) (m : string) (p : option json) : nat * answer :=
  ((s + length (Klap_Model.lit m))%nat, AResult (JObj [("n", JInt (Z.of_nat (s + length (Klap_Model.lit m))))])).
Definition xh_text (n : nat) (q : request) : bytes :=
  match q with Single _ (Some (JObj [_; (_, JObj [(_, JStr m); _])])) => Klap_Model.lit m | _ => [] end.
Definition xh_obj (n : nat) : json := JObj (reply_with (say (AResult (JObj [("n", JInt (Z.of_nat n))])))).
Section ExKlap.
Import Klap_Model KlapPeer_Spec KlapPeer_Props.
Definition xh_json (b : bytes) : option (option json) := Some (Some (xh_obj (length b))).
Notation xh_together := (together toy2_md5 toy2_md5 toy2_sha (fun _ b => b) (fun _ b => b) json xh_json nat ex_app my_auth my_config).
Notation xh_client := (klap_client toy2_md5 toy2_md5 toy2_sha (fun _ b => b) (fun _ b => b) xh_json my_config).
Notation xh_direct := (direct_send _ nat _ _ xh_text as_dict xk_script ex_app (understood json xh_json)).
Lemma xh_relays id m : relays (ticks xk_script) (inside xh_kid) xh_direct id (CName m).
Proof.
  intros d d' r H. unfold ticks, inside, xh_kid in H. cbn [content acts fst snd] in H. injection H as <- <-.
  do 2 eexists. split; [|split].
  - unfold direct_send. cbn [told message xh_text ex_app fst snd]. cbn [understood bind xh_json as_dict xh_obj]. rewrite repeat_length. reflexivity.
  - eexists. split; [apply say_reports; exact I|]. split; reflexivity.
  - cbn [says]. split; [apply say_reports; exact I|]. right. eexists. split; [reflexivity|exact I].
Qed.
Example whole_klap_hub_ex :
  klap_fresh toy2_md5 toy2_md5 toy2_sha (fun _ b => b) (fun _ b => b) xh_json nat ex_app my_auth my_config (init, d0) /\
  let qs := [(ToKid "A" (CName "four"), 3); (ToKid "B" (CName "xy"), 3)] in
  relayed_all (ticks xk_script) (inside xh_kid) xh_direct qs /\
  exists w' y o,
  ask_all (through (stack_send _ _ nat _ _ xh_client xh_text as_dict xk_script) (stack_reset _ _ nat klap_reset))
    (Smart_Model.mkW (mkStack init 0 []) 5 []) qs =
  (w', [([Exec], Ok [("four", RJson (JObj [("n", JInt 9)]))]); ([Exec], Ok [("xy", RJson (JObj [("n", JInt 12)]))])]) /\
  xh_together (init, d0) (klap_happenings (k_trace (wdev w'))) y o /\
  all_healthy toy2_sha nat my_auth (klap_happenings (k_trace (wdev w'))) /\ dv_state (snd y) = 12%nat.
Proof.
  split; [exists d0, [], init, []; split; [constructor|now left]|]. split.
  { repeat constructor; cbn [fst snd]; try lia; try apply xh_relays; cbn; try discriminate; intros F; intuition discriminate. }
  do 3 eexists. split; [vm_compute; reflexivity|]. cbn [wdev k_trace klap_happenings flat_map List.app]. split; [|split].
  - apply together_device. show_send. apply together_device. show_send. apply together_nil.
  - cbn [all_healthy]. unfold healthy. repeat split; vm_compute; congruence.
  - reflexivity.
Qed.
End ExKlap.
Section ExAes.
Import Aes_Model AesPeer_Spec AesPeer_Props.
Definition xha_json (b : bytes) : option json :=
  match b with
  | "T"%char :: _ | "R"%char :: _ => toy_json b
  | _ => Some (xh_obj (length b))
  end.
Notation xha_together := (together (fun _ b => b) (fun _ b => b) xha_json toy_open toy_login nat ex_app toy_accepts toy_welcome toy_refusal).
Notation xha_client := (aes_client (fun _ b => b) (fun _ b => b) xha_json toy_open toy_login).
Notation xha_direct := (direct_send _ nat _ _ xh_text as_dict xa_script ex_app (understood xha_json)).
Example xha_speaks : speaks xha_json nat ex_app toy_welcome toy_refusal.
Proof.
  split; [|split].
  - intros s m. cbn [ex_app snd]. destruct (s + length m)%nat; eexists; reflexivity.
  - intros tk. cbn. now rewrite string_of_list_ascii_of_string.
  - reflexivity.
Qed.
Lemma xha_reads n : xha_json (repeat "x"%char n) = Some (xh_obj n).
Proof. destruct n; cbn [repeat xha_json]; [reflexivity|]. cbn [length]. now rewrite repeat_length. Qed.
Lemma xha_relays id m : relays (ticks xa_script) (inside xh_kid) xha_direct id (CName m).
Proof.
  intros d d' r H. unfold ticks, inside, xh_kid in H. cbn [content acts fst snd] in H. injection H as <- <-.
  do 2 eexists. split; [|split].
  - unfold direct_send. cbn [told message xh_text ex_app fst snd]. unfold understood. rewrite xha_reads. cbn [bind as_dict xh_obj]. reflexivity.
  - eexists. split; [apply say_reports; exact I|]. split; reflexivity.
  - cbn [says]. split; [apply say_reports; exact I|]. right. eexists. split; [reflexivity|exact I].
Qed.
Example whole_aes_hub_ex :
  aes_fresh (fun _ b => b) (fun _ b => b) xha_json toy_open toy_login nat ex_app toy_accepts toy_welcome toy_refusal (init, d0) /\
  let qs := [(ToKid "A" (CName "four"), 3); (ToKid "B" (CName "xy"), 3)] in
  relayed_all (ticks xa_script) (inside xh_kid) xha_direct qs /\
  exists w' y o,
  ask_all (through (stack_send _ _ nat _ _ xha_client xh_text as_dict xa_script) (stack_reset _ _ nat reset))
    (Smart_Model.mkW (mkStack init 0 []) 5 []) qs =
  (w', [([Exec], Ok [("four", RJson (JObj [("n", JInt 9)]))]); ([Exec], Ok [("xy", RJson (JObj [("n", JInt 12)]))])]) /\
  xha_together (init, d0) (aes_happenings (k_trace (wdev w'))) y o /\
  all_healthy nat (aes_happenings (k_trace (wdev w'))) /\ dv_state (snd y) = 12%nat.
Proof.
  split; [exists d0, [], init, []; split; [constructor|now left]|]. split.
  { repeat constructor; cbn [fst snd]; try lia; try apply xha_relays; cbn; try discriminate; intros F; intuition discriminate. }
  do 3 eexists. split; [vm_compute; reflexivity|]. cbn [wdev k_trace aes_happenings flat_map List.app]. split; [|split].
  - apply together_device. show_send. apply together_device. show_send. apply together_nil.
  - repeat constructor; vm_compute; congruence.
  - reflexivity.
Qed.
End ExAes.
Section ExCam.
Import Cam_Model Cam_Spec CamPeer_Spec CamPeer_Props.
Definition xhc_obj (n : nat) : json := JObj [("result", JObj [("responses", JArr [JObj [("result", JObj [("response_data",
  JObj (say (AResult (JObj [("n", JInt (Z.of_nat n))]))))])]])])].
Definition xhc_json (b : bytes) : option json := Some (xhc_obj (length b)).
Definition xhc_text (n : nat) (q : request + dict json) : bytes :=
  match q with
  | inr [_; (_, JObj [(_, JArr [JObj [_; (_, JObj [(_, JObj [_; (_, JObj [(_, JStr m); _])])])]])])] => Klap_Model.lit m
  | _ => []
  end.
Notation xhc_together := (together (fun _ b => b) (fun _ b => b) xhc_json toy_md5 toy_hex toy_sha toy_int toy_str (fun b => b) toy_cfg
  "admin" toy_pass nat ex_app).
Notation xhc_client := (cam_client (fun _ b => b) (fun _ b => b) xhc_json toy_md5 toy_hex toy_sha toy_int toy_str (fun b => b) toy_cfg).
Notation xhc_direct := (direct_send _ nat _ _ xhc_text as_dict xc_script ex_app (understood xhc_json)).
Lemma xhc_relays id m : cam_relays (ticks xc_script) (inside xh_kid) xhc_direct id [(m, JNull)].
Proof.
  intros d d' r H. unfold ticks, inside, xh_kid in H. cbn [content map acts fst snd] in H. injection H as <- <-.
  eexists _, _, _. split; [|split; [|split; [|split]]].
  - unfold direct_send, cam_told. cbn [map xhc_text ex_app fst snd]. unfold understood, xhc_json. rewrite repeat_length. cbn [bind as_dict xhc_obj]. reflexivity.
  - left. reflexivity.
  - reflexivity.
  - reflexivity.
  - constructor; [|constructor]. do 3 eexists. split; [reflexivity|]. split; [reflexivity|]. split; [reflexivity|]. apply say_reports. exact I.
Qed.
Example whole_cam_hub_ex :
  cam_fresh (fun _ b => b) (fun _ b => b) xhc_json toy_md5 toy_hex toy_sha toy_int toy_str (fun b => b) toy_cfg "admin" toy_pass nat ex_app
    (init toy_cfg, d0) /\
  let qs := [(CamKid "A" [("four", JNull)], 3); (CamKid "B" [("xy", JNull)], 3)] in
  cam_relayed_all (ticks xc_script) (inside xh_kid) xhc_direct qs /\
  exists w' y o,
  ask_all (cam_through (stack_send _ _ nat _ _ xhc_client xhc_text as_dict xc_script) (stack_reset _ _ nat reset))
    (Smart_Model.mkW (mkStack (init toy_cfg) 0 []) 1 []) qs =
  (w', [([Exec], Ok [("four", RJson (JObj [("n", JInt 9)]))]); ([Exec], Ok [("xy", RJson (JObj [("n", JInt 12)]))])]) /\
  xhc_together (init toy_cfg, d0) (cam_happenings (k_trace (wdev w'))) y o /\
  all_healthy toy_md5 toy_hex toy_cfg nat (cam_happenings (k_trace (wdev w'))) /\ dv_state (snd y) = 12%nat.
Proof.
  split; [exists d0, [], (init toy_cfg), []; split; [constructor|now left]|]. split.
  { repeat constructor; cbn [fst snd]; try lia; try apply xhc_relays; cbn; try discriminate; intros F; intuition discriminate. }
  do 3 eexists. split; [vm_compute; reflexivity|]. cbn [wdev k_trace cam_happenings flat_map List.app]. split; [|split].
  - apply together_device. show_send. apply together_device. show_send. apply together_nil.
  - show_healthy.
  - reflexivity.
Qed.
End ExCam.
