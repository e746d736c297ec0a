(** Properties C47, C60: queries to children behind a hub. *)
From Coq Require Import Permutation.
From Verif Require Import Base Base_Lemmas Py Codes_Model Smart_Model Smart_Spec Smart_Proofs
  Child_Model Child_Spec Child_Proofs.
Open Scope nat_scope.
Open Scope string_scope.

(** * C47 *)

(** One method: the hub is asked exactly the envelope for this child, and the
    child's answer comes back as the entry of the method or as the exception of
    its code. *)
Theorem child_query_single : forall hub id m p rd response a,
  hub (envelope id m p) = Ok response -> relayed rd response -> reports a rd ->
  plain (match dget "result" rd with Some v => v | None => JNull end) ->
  child_query hub id (CDict [(m, p)]) =
    match a with
    | AResult j => Ok [(m, RJson j)]
    | AError c => Err (error_of c)
    end.
Proof. exact child_single_lemma. Qed.
Print Assumptions child_query_single.

Theorem child_query_by_name : forall hub id m,
  child_query hub id (CName m) = child_query hub id (CDict [(m, JNull)]).
Proof. exact child_name_lemma. Qed.
Print Assumptions child_query_by_name.

(** Several methods answered in any order: every method gets its own answer and
    nothing else is returned. *)
Theorem child_query_multi : forall hub id ans req order rs r rd response,
  length req <> 1 -> req <> [] -> dwf req ->
  hub (wrap_child id (CDict req)) = Ok response -> relayed rd response ->
  reports (AResult (JObj r)) rd -> dget "responses" r = Some (JArr rs) ->
  Permutation req order -> Forall2 (child_reply ans) order rs ->
  exists out, child_query hub id (CDict req) = Ok out /\ dwf out /\
    forall m, dget m out = match dget m req with
                           | Some p => Some (entry_of (ans m p))
                           | None => None
                           end.
Proof. exact child_multi_lemma. Qed.
Print Assumptions child_query_multi.

(** Whatever is asked, the hub receives one message, addressed to this child, that
    names exactly the requested methods with their (truthy) parameters. *)
Theorem child_query_addressed : forall id req,
  length req <> 1 ->
  wrap_child id (CDict req) =
    envelope id "multipleRequest"
      (JObj [("requests", JArr (map (fun kv =>
         JObj (("method", JStr (fst kv)) :: if truthy (snd kv) then [("params", snd kv)] else [])) req))]).
Proof.
  intros id req Hl. unfold wrap_child, envelope.
  assert (E : method_and_params (CDict req) =
    ("multipleRequest", JObj [("requests", JArr (map (fun kv =>
         JObj (("method", JStr (fst kv)) :: if truthy (snd kv) then [("params", snd kv)] else [])) req))])).
  { destruct req as [|[a b] [|c req]]; [reflexivity | now elim Hl |].
    unfold method_and_params. do 5 f_equal. apply map_ext. intros [x y]. cbn [fst snd].
    destruct (truthy y); reflexivity. }
  rewrite E. reflexivity.
Qed.
Print Assumptions child_query_addressed.

(** The hub's failure is the caller's failure. *)
Theorem child_query_hub_failure : forall hub id req e,
  hub (wrap_child id req) = Err e -> child_query hub id req = Err e.
Proof. intros hub id req e H. unfold child_query. rewrite H. reflexivity. Qed.
Print Assumptions child_query_hub_failure.

(** A method the child did not answer is silently absent, unlike in a query to the
    device itself. *)
Theorem child_missing_method_refuted : exists response out,
  child_query (fun _ => Ok response) "C1" (CDict [("get_a", JNull); ("get_b", JNull)]) = Ok out /\
  dget "get_b" out = None.
Proof.
  exists [("control_child", JObj [("responseData", JObj [("error_code", JInt 0);
      ("result", JObj [("responses", JArr [JObj [("method", JStr "get_a"); ("error_code", JInt 0);
          ("result", JObj [])]])])])])].
  eexists. split; [vm_compute; reflexivity|]. vm_compute. reflexivity.
Qed.
Print Assumptions child_missing_method_refuted.

(** An error code of the child's whole reply is ignored when the reply also lists replies. *)
Theorem child_error_ignored_refuted : exists rd response out,
  relayed rd response /\ reports (AError (-1001)) rd /\
  child_query (fun _ => Ok response) "C1" (CDict [("get_a", JNull); ("get_b", JNull)]) = Ok out.
Proof.
  exists [("error_code", JInt (-1001)); ("result", JObj [("responses",
            JArr [JObj [("method", JStr "get_a"); ("error_code", JInt 0)]])])].
  eexists [("control_child", JObj [("responseData", _)])]. eexists.
  split; [eexists; split; reflexivity|]. split; [split; [discriminate | reflexivity]|].
  vm_compute. reflexivity.
Qed.
Print Assumptions child_error_ignored_refuted.

(** A query for no method answers for a method nobody asked for. *)
Theorem child_empty_request_refuted : exists response out,
  child_query (fun _ => Ok response) "C1" (CDict []) = Ok out /\ dkeys out = ["multipleRequest"].
Proof.
  exists [("control_child", JObj [("responseData", JObj [("error_code", JInt 0);
      ("result", JObj [("responses", JArr [])])])])].
  eexists. split; vm_compute; reflexivity.
Qed.
Print Assumptions child_empty_request_refuted.

Example child_multi_ex :
  child_query (fun _ => Ok [("control_child", JObj [("responseData", JObj [("error_code", JInt 0);
      ("result", JObj [("responses", JArr [
         JObj [("method", JStr "get_b"); ("error_code", JInt (-1002))];
         JObj [("method", JStr "get_a"); ("error_code", JInt 0); ("result", JObj [("x", JInt 1)])]])])])])])
   "C1" (CDict [("get_a", JNull); ("get_b", JObj [("y", JInt 2)])])
  = Ok [("get_b", RCode (-1002)); ("get_a", RJson (JObj [("x", JInt 1)]))].
Proof. vm_compute. reflexivity. Qed.
Example child_single_error_ex :
  child_query (fun _ => Ok [("control_child", JObj [("responseData", JObj [("error_code", JInt (-1501))])])])
    "C1" (CName "get_a") = Err (KAuth (Some (-1501)%Z)).
Proof. vm_compute. reflexivity. Qed.

(** * C60 *)

(** One method. *)
Theorem cam_child_single : forall hub id ans m p response x,
  hub (wrap_cam id [(m, p)]) = Ok response -> cam_responses [x] response -> cam_reply ans (m, p) x ->
  cam_child_query hub id (CDict [(m, p)]) =
    match ans m p with
    | AResult j => Ok [(m, RJson j)]
    | AError c => Err (error_of c)
    end.
Proof. exact cam_single_lemma. Qed.
Print Assumptions cam_child_single.

(** The hub is asked once; the message holds, in order, each requested method with
    its parameters, addressed to this child. *)
Theorem cam_child_addressed : forall hub id req e,
  hub [("multipleRequest", JObj [("requests", JArr (map (fun kv =>
         JObj [("method", JStr "controlChild");
               ("params", JObj [("childControl", JObj [
                  ("device_id", JStr id);
                  ("request_data", JObj [("method", JStr (fst kv)); ("params", snd kv)])])])]) req))])] = Err e ->
  cam_child_query hub id (CDict req) = Err e.
Proof. intros hub id req e H. unfold cam_child_query. cbv beta iota. unfold wrap_cam. rewrite H. reflexivity. Qed.
Print Assumptions cam_child_addressed.

(** Several methods, answered one for one in the order of the request: every
    method gets its own answer.  What is missing: any other order or number. *)
Theorem cam_child_ordered_partial : forall hub id ans req response rs,
  length req <> 1 -> dwf req ->
  hub (wrap_cam id req) = Ok response -> cam_responses rs response ->
  Forall2 (cam_reply ans) req rs ->
  exists out, cam_child_query hub id (CDict req) = Ok out /\ dwf out /\
    forall m, dget m out = match dget m req with
                           | Some p => Some (entry_of (ans m p))
                           | None => None
                           end.
Proof. exact cam_ordered_lemma. Qed.
Print Assumptions cam_child_ordered_partial.

(** More replies than methods are never accepted; with fewer, exactly the first
    methods have an entry. *)
Theorem cam_child_counts : forall hub id req response rs out,
  hub (wrap_cam id req) = Ok response -> cam_responses rs response ->
  cam_child_query hub id (CDict req) = Ok out ->
  length rs <= length req /\
  forall m, In m (dkeys out) <-> In m (firstn (length rs) (dkeys req)).
Proof.
  intros hub id req response rs out Hh Hr H. rewrite (cam_query_open _ _ _ _ _ Hh Hr) in H. split.
  - apply cam_multi_no_more in H. unfold dkeys in H. now rewrite map_length in H.
  - intro m. rewrite (cam_multi_keys _ _ _ _ _ H). cbn. tauto.
Qed.
Print Assumptions cam_child_counts.

(** A text request is refused without a message. *)
Theorem cam_child_text : forall hub id m, cam_child_query hub id (CName m) = Err KKasa.
Proof. reflexivity. Qed.
Print Assumptions cam_child_text.

(** Replies in another order end up under the wrong method. *)
Theorem cam_child_order_refuted : exists ans req order rs out,
  dwf req /\ Permutation req order /\ Forall2 (cam_reply ans) order rs /\
  cam_child_query (fun _ => Ok [("multipleRequest", JObj [("responses", JArr rs)])]) "C1" (CDict req) = Ok out /\
  dget "getA" out = Some (entry_of (ans "getB" JNull)) /\
  ans "getA" JNull <> ans "getB" JNull.
Proof.
  pose (rep n := JObj [("result", JObj [("response_data",
                   JObj [("error_code", JInt 0); ("result", JInt n)])])]).
  pose (ans m (p : json) := AResult (JInt (if String.eqb m "getA" then 1 else 2))).
  exists ans, [("getA", JNull); ("getB", JNull)], [("getB", JNull); ("getA", JNull)], [rep 2%Z; rep 1%Z].
  eexists. split.
  { repeat constructor; cbn; intuition discriminate. }
  split; [apply perm_swap|]. split.
  { repeat constructor; repeat eexists; cbn; auto. }
  split; [vm_compute; reflexivity|]. split; [vm_compute; reflexivity | discriminate].
Qed.
Print Assumptions cam_child_order_refuted.

(** A missing reply leaves a method without entry although the query succeeds. *)
Theorem cam_child_missing_refuted : exists response out,
  cam_child_query (fun _ => Ok response) "C1" (CDict [("getA", JNull); ("getB", JNull)]) = Ok out /\
  dget "getB" out = None.
Proof.
  exists [("multipleRequest", JObj [("responses", JArr [JObj [("result", JObj [("response_data",
                   JObj [("error_code", JInt 0); ("result", JInt 1)])])]])])].
  eexists. split; vm_compute; reflexivity.
Qed.
Print Assumptions cam_child_missing_refuted.

Example cam_child_ex :
  cam_child_query (fun _ => Ok [("multipleRequest", JObj [("responses", JArr [
      JObj [("result", JObj [("response_data", JObj [("error_code", JInt 0); ("result", JInt 1)])])];
      JObj [("result", JObj [("response_data", JObj [("error_code", JInt (-40401))])])]])])])
    "C1" (CDict [("getA", JNull); ("getB", JNull)])
  = Ok [("getA", RJson (JInt 1)); ("getB", RCode (-40401)%Z)].
Proof. vm_compute. reflexivity. Qed.
