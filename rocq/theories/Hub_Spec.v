(** Hubs that relay messages to their children (C115, C116). *)
From Verif Require Import Base Py Codes_Model Retry_Model Smart_Model Smart_Spec Child_Model Child_Spec CamQuery_Model Hub_Model Stack_Spec.
Open Scope string_scope.
Open Scope list_scope.

(** What a child is asked to do, in order: methods with their params, if any *)
Definition given (p : json) : option json := if truthy p then Some p else None.
Definition content (req : child_request) : list (string * option json) :=
  match req with CName m => [(m, None)] | CDict l => map (fun kv => (fst kv, given (snd kv))) l end.
(** Something is asked, nothing twice, and no method is a container of others. *)
Definition proper (req : child_request) : Prop :=
  content req <> [] /\ NoDup (map fst (content req)) /\ ~ In "multipleRequest" (map fst (content req)).

(** The message for the child [id] in the hub's language *)
Definition message (id method : string) (params : json) : request :=
  Single "control_child" (Some (JObj [("device_id", JStr id);
    ("requestData", JObj [("method", JStr method); ("params", params)])])).
Definition told (id : string) (req : child_request) : request :=
  match req with
  | CName m => message id m JNull
  | CDict [(m, p)] => message id m p
  | CDict l => message id "multipleRequest" (JObj [("requests", JArr (map (fun kv =>
      JObj (("method", JStr (fst kv)) :: if truthy (snd kv) then [("params", snd kv)] else [])) l))])
  end.
(** and in that of camera hubs *)
Definition cam_told (id : string) (l : dict json) : dict json :=
  [("method", JStr "multipleRequest"); ("params", JObj [("requests", JArr (map (fun kv =>
     JObj [("method", JStr "controlChild"); ("params", JObj [("childControl", JObj [("device_id", JStr id);
       ("request_data", JObj [("method", JStr (fst kv)); ("params", snd kv)])])])]) l))])].

Section Kids.
Context {D : Type}.
(** What the hub, with all its children, does on its own before a message reaches it *)
Variable life : D -> D.
(** Child [id] acts on one method. *)
Variable act : string -> D -> string -> option json -> D * answer.
Fixpoint acts (id : string) (d : D) (l : list (string * option json)) : D * list (string * answer) :=
  match l with
  | [] => (d, [])
  | (m, p) :: l' => let (d1, a) := act id d m p in let (d2, r) := acts id d1 l' in (d2, (m, a) :: r)
  end.

(** Calling the child: an error of a single method is raised, otherwise every method has its value. *)
Definition call (id : string) (d : D) (req : child_request) : D * res (dict rval) :=
  let (d', r) := acts id (life d) (content req) in
  (d', match r with
       | [(_, AError c)] => Err (error_of c)
       | _ => Ok (map (fun x => (fst x, entry_of (snd x))) r)
       end).

(** The hub's reply carries the child's message [rd]. *)
Definition carries (rd reply : dict json) : Prop :=
  exists c, reports (AResult (JObj c)) reply /\ dget "responseData" c = Some (JObj rd) /\ dget "start_index" c = None.
(** [rd] says what the child did. *)
Definition item (x : json) (ma : string * answer) : Prop :=
  exists o, x = JObj o /\ dget "method" o = Some (JStr (fst ma)) /\ reports (snd ma) o.
Definition says (rd : dict json) (r : list (string * answer)) : Prop :=
  match r with
  | [(_, a)] => reports a rd /\ Child_Spec.plain (match dget "result" rd with Some v => v | None => JNull end)
  | _ => exists b xs, reports (AResult (JObj b)) rd /\ dget "responses" b = Some (JArr xs) /\ Forall2 item xs r
  end.
(** The hub relays this request to this child: the child acts on it and the reply says how. *)
Definition relays (send : D -> request -> D * res (dict json)) (id : string) (req : child_request) : Prop :=
  forall d d' r, acts id (life d) (content req) = (d', r) ->
  exists reply rd, send d (told id req) = (d', Ok reply) /\ carries rd reply /\ says rd r.

(** Camera hubs: one reply for each method, in order; the whole need not have a code. *)
Definition cam_item (x : json) (ma : string * answer) : Prop :=
  exists o c rd, x = JObj o /\ dget "result" o = Some (JObj c) /\ dget "response_data" c = Some (JObj rd) /\ reports (snd ma) rd.
Definition cam_relays (send : D -> request + dict json -> D * res (dict json)) (id : string) (l : dict json) : Prop :=
  forall d d' r, acts id (life d) (content (CDict l)) = (d', r) ->
  exists reply b xs, send d (inr (cam_told id l)) = (d', Ok reply) /\
    (dget "error_code" reply = None \/ dget "error_code" reply = Some (JInt 0)) /\
    dget "result" reply = Some (JObj b) /\ dget "responses" b = Some (JArr xs) /\ Forall2 cam_item xs r.

(** Programs that talk to a hub and to its children: through the hub, and with the children at
    hand. *)
Inductive ask := ToHub (q : dict json) | ToKid (id : string) (req : child_request).
Section Programs.
Variable send : D -> request -> D * res (dict json).
Variable treset : D -> D.
Definition through (q : ask) (rc : Z) : world D -> world D * list Retry_Model.act * res (dict rval) :=
  match q with
  | ToHub q => smart_ask send treset q rc
  | ToKid id req => child_over (smart_ask send treset) id req rc
  end.
Definition at_hand (q : ask) (rc : Z) (w : world D) : world D * list Retry_Model.act * res (dict rval) :=
  match q with
  | ToHub q => smart_ask send treset q rc w
  | ToKid id req => let (d', r) := call id (wdev w) req in (mkW d' (wbatch w) (wlog w ++ [told id req]), [Exec], r)
  end.
Definition relayed_all (qs : list (ask * Z)) : Prop :=
  Forall (fun x => match fst x with ToHub _ => True | ToKid id req => (0 <= snd x)%Z /\ proper req /\ relays send id req end) qs.
End Programs.
Inductive cam_asks := CamHub (q : cam_request) | CamKid (id : string) (l : dict json).
Section CamPrograms.
Variable send : D -> request + dict json -> D * res (dict json).
Variable treset : D -> D.
Definition cam_through (q : cam_asks) (rc : Z) : world D -> world D * list Retry_Model.act * res (dict rval) :=
  match q with
  | CamHub q => cam_ask send treset q rc
  | CamKid id l => cam_child_over (fun d rc => cam_ask send treset (QDict d) rc) id (CDict l) rc
  end.
Definition cam_at_hand (q : cam_asks) (rc : Z) (w : world D) : world D * list Retry_Model.act * res (dict rval) :=
  match q with
  | CamHub q => cam_ask send treset q rc w
  | CamKid id l => let (d', r) := call id (wdev w) (CDict l) in (mkW d' (wbatch w) (wlog w), [Exec], r)
  end.
Definition cam_relayed_all (qs : list (cam_asks * Z)) : Prop :=
  Forall (fun x => match fst x with CamHub _ => True | CamKid id l => (0 <= snd x)%Z /\ proper (CDict l) /\ cam_relays send id l end) qs.
End CamPrograms.
End Kids.
