(** Specification vocabulary for SMART queries (C07, C08, C09). *)
From Verif Require Import Base Py Codes_Model Smart_Model.
Open Scope Z_scope.

(** ** Error codes (C09) *)
Inductive kind := KindSuccess | KindRetryable | KindAuthentication | KindDevice.

(** The documented classes, by number. *)
Definition kind_of (z : Z) : kind :=
  match z with
  | 0 => KindSuccess
  | 1002 | 1112 | -1001 | 9999 | -40401 | -40413 => KindRetryable
  | -1501 | 1111 | -1005 | 1100 | 1003 | -40412 => KindAuthentication
  | _ => KindDevice
  end.

(** The code under which a number is reported. *)
Definition reported_code (z : Z) : Z :=
  if in_dec Z.eq_dec z smart_error_codes then z else -100000.

(** ** Devices that answer each method consistently (C07) *)
Inductive answer : Type :=
| AResult (j : json)
| AError (c : Z).

(** [r] is a reply saying [a]. *)
Definition reports (a : answer) (r : dict json) : Prop :=
  match a with
  | AResult j =>
      dget "error_code" r = Some (JInt 0) /\
      (dget "result" r = Some j \/ (j = JNull /\ dget "result" r = None))
  | AError c => c <> 0 /\ dget "error_code" r = Some (JInt c)
  end.

(** An element of a batch reply without a usable method name. *)
Definition unnamed (o : dict json) : Prop :=
  dget "method" o = None \/ dget "method" o = Some JNull \/ dget "method" o = Some (JStr "").

Definition named (m : string) (o : dict json) : Prop :=
  m <> ""%string /\ dget "method" o = Some (JStr m).

Section Device.
Context {D : Type}.
Variable dev_send : D -> request -> D * res (dict json).
Variable ans : string -> option json -> answer.

(** A batch reply holds replies to some of the methods of the batch, in any
    order and number, possibly without method name. *)
Definition batch_reply (l : list (string * option json)) (reply : dict json) : Prop :=
  dget "error_code" reply = Some (JInt 0) /\
  exists r rs,
    dget "result" reply = Some (JObj r) /\ dget "responses" r = Some (JArr rs) /\
    Forall (fun x => exists o, x = JObj o /\
      (unnamed o \/ exists m p, In (m, p) l /\ named m o /\ reports (ans m p) o)) rs.

(** Whenever the device replies, it replies what [ans] says. *)
Definition honest : Prop := forall d req d' reply,
  dev_send d req = (d', Ok reply) ->
  match req with
  | Single m p => reports (ans m p) reply
  | Batch l => batch_reply l reply
  end.

(** The same, for single requests only. *)
Definition honest_single : Prop := forall d m p d' reply,
  dev_send d (Single m p) = (d', Ok reply) -> reports (ans m p) reply.
Definition live_single : Prop := forall d m p, exists d' reply, dev_send d (Single m p) = (d', Ok reply).

(** The device refuses batches with error code [c]. *)
Definition refuses_batches (c : Z) : Prop := forall d l, exists d' reply,
  dev_send d (Batch l) = (d', Ok reply) /\ dget "error_code" reply = Some (JInt c).

(** Every message gets a reply. *)
Definition live : Prop := forall d req, exists d' reply, dev_send d req = (d', Ok reply).

(** ** Paged lists (C08) *)
Definition start_index (k : Z) : json := JObj [("start_index"%string, JInt k)].

(** Asked for the items from [k] on, the device gives at least one of them. *)
Definition serves (m name : string) (L : list json) : Prop :=
  forall k, (k < length L)%nat -> exists page n,
    ans m (Some (start_index (Z.of_nat k))) = AResult (JObj page) /\
    (1 <= n)%nat /\ dget name page = Some (JArr (firstn n (skipn k L))).

(** [d] holds under [name] its first list-valued entry. *)
Definition first_list (d : dict json) (name : string) (l : list json) : Prop :=
  exists d1 d2, d = d1 ++ (name, JArr l) :: d2 /\
                Forall (fun kv => forall x, snd kv <> JArr x) d1.

(** [simple m p v]: the value of method [m] with params [p] when the device
    gives it in one reply: an error code, or a result that is no list page. *)
Inductive simple (m : string) (p : option json) : rval -> Prop :=
| simple_code c : ans m p = AError c -> simple m p (RCode (reported_code c))
| simple_plain j : ans m p = AResult j ->
    (forall d, j = JObj d -> dget "start_index" d = None) ->
    (j = JNull \/ exists d, j = JObj d) ->
    simple m p (RJson j).

(** [whole m p v]: the complete value of method [m] with params [p]; for a
    paged list, the first reply with the complete list in it. *)
Inductive whole (m : string) (p : option json) : rval -> Prop :=
| whole_simple v : simple m p v -> whole m p v
| whole_paged d name l L :
    ans m p = AResult (JObj d) -> dwf d ->
    dget "start_index" d <> None ->
    dget "sum" d = Some (JInt (Z.of_nat (length L))) ->
    first_list d name l -> (exists n, l = firstn n L) ->
    serves m name L ->
    whole m p (RJson (JObj (dset name (JArr L) d))).

(** The device answers every method of a batch that has a name, by name. *)
Definition complete : Prop := forall d l d' reply r rs,
  dev_send d (Batch l) = (d', Ok reply) ->
  dget "result" reply = Some (JObj r) -> dget "responses" r = Some (JArr rs) ->
  forall m p, In (m, p) l -> m <> ""%string -> exists o, In (JObj o) rs /\ named m o.

(** The device answers single requests with an explicit "result". *)
Definition explicit : Prop := forall d m p d' reply,
  dev_send d (Single m p) = (d', Ok reply) ->
  dget "error_code" reply = Some (JInt 0) -> dget "result" reply <> None.
End Device.

(** The methods of the batches in a log. *)
Definition batch_sizes_ok (step : Z) (log : list request) : Prop :=
  Forall (fun r => match r with Batch l => Z.of_nat (length l) <= step | _ => True end) log.
Definition batched (log : list request) : list (string * option json) :=
  flat_map (fun r => match r with Batch l => l | _ => [] end) log.
