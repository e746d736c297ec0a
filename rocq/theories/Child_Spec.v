(** Specification vocabulary for child queries (C47, C60). *)
From Coq Require Import Permutation.
From Verif Require Import Base Py Codes_Model Smart_Model Smart_Spec Child_Model.
Open Scope string_scope.

(** What a caller should get for an answer of the child. *)
Definition entry_of (a : answer) : rval :=
  match a with AResult j => RJson j | AError c => RCode (reported_code c) end.
Definition error_of (c : Z) : exn :=
  match kind_of c with
  | KindRetryable => KRetry (Some (reported_code c))
  | KindAuthentication => KAuth (Some (reported_code c))
  | _ => KDevice (Some (reported_code c))
  end.

(** The message for the child with id [id]. *)
Definition envelope (id method : string) (params : json) : dict json :=
  [("control_child", JObj [("device_id", JStr id);
      ("requestData", JObj [("method", JStr method); ("params", params)])])].
(** The hub relays the child's message [rd]. *)
Definition relayed (rd : dict json) (response : dict json) : Prop :=
  exists c, dget "control_child" response = Some (JObj c) /\ dget "responseData" c = Some (JObj rd).

(** A result that is not itself a list of replies: nothing, or an object
    without (non-empty) "responses". *)
Definition plain (j : json) : Prop :=
  j = JNull \/ exists d, j = JObj d /\ match dget "responses" d with
                                       | Some v => truthy v = false
                                       | None => True end.

(** One reply in a child's list of replies. *)
Definition child_reply (ans : string -> json -> answer) (mp : string * json) (x : json) : Prop :=
  exists o, x = JObj o /\ dget "method" o = Some (JStr (fst mp)) /\ reports (ans (fst mp) (snd mp)) o.

(** ** Camera hubs *)
(** The reply to one relayed request. *)
Definition cam_reply (ans : string -> json -> answer) (mp : string * json) (x : json) : Prop :=
  exists o r rd, x = JObj o /\ dget "result" o = Some (JObj r) /\
    dget "response_data" r = Some (JObj rd) /\ reports (ans (fst mp) (snd mp)) rd.
Definition cam_responses (rs : list json) (response : dict json) : Prop :=
  exists m, dget "multipleRequest" response = Some (JObj m) /\ dget "responses" m = Some (JArr rs).
