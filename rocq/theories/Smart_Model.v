(** Executing SMART queries: batching, re-querying, list paging.
    Models kasa/protocols/smartprotocol.py:94-97, 121-130, 201-406. *)
From Verif Require Import Base Py Codes_Model.
Open Scope Z_scope.

(** FORCE_SINGLE_REQUEST, smartprotocol.py:94-97 *)
Definition force_single_request : list string := ["getConnectStatus"; "scanApList"]%string.

(** A message given to the transport, smartprotocol.py:121-130 and 215,237-238:
    one method with its params (None when falsy), or a multipleRequest carrying
    several.  request_time_milis, terminal_uuid and the JSON text are left out. *)
Inductive request : Type :=
| Single (method : string) (params : option json)
| Batch (requests : list (string * option json)).

(** The value reported for a method: what the device sent, or an error code
    (a SmartErrorCode object put in place of the result, smartprotocol.py:424). *)
Inductive rval : Type :=
| RJson (j : json)
| RCode (c : Z).

(** [params] if truthy else nothing, smartprotocol.py:128-129, 215 *)
Definition eff_params (p : json) : option json := if truthy p then Some p else None.

Section Proto.
(** The device and transport: an arbitrary state and reply function. A reply is
    a JSON object (Transport.send returns a dict) or an exception. *)
Context {D : Type}.
Variable dev_send : D -> request -> D * res (dict json).

(** [wlog]: requests handed to the transport, in order. [wbatch]:
    self._multi_request_batch_size. *)
Record world := mkW { wdev : D; wbatch : Z; wlog : list request }.

(** self._transport.send(self.get_smart_request(...)) *)
Definition send (r : request) : M world (dict json) := fun w =>
  let (d', a) := dev_send (wdev w) r in (mkW d' (wbatch w) (wlog w ++ [r]), a).

Definition set_batch (b : Z) : M world unit := fun w => (mkW (wdev w) b (wlog w), Ok tt).
Definition get_batch : M world Z := fun w => (w, Ok (wbatch w)).

(** SmartProtocol._execute_query for one method without paging,
    smartprotocol.py:335-354,359 (the [str] form is the one with no params). *)
Definition single_query (method : string) (params : json) : M world json :=
  do! resp <- send (Single method (eff_params params)) ;;
  do! _ <- mlift (handle_response_error_code resp true) ;;
  mret (match dget "result" resp with Some v => v | None => JNull end).

(** ** Lists served in pages *)

(** The first key whose value is a list, smartprotocol.py:381-389 *)
Fixpoint first_list_key (d : dict json) : option string :=
  match d with
  | [] => None
  | (k, v) :: d' => if is_list v then Some k else first_list_key d'
  end.

(** list.extend(v): any iterable, smartprotocol.py:406 *)
Definition extend (l : list json) (v : json) : res (list json) :=
  let! items := jiter v in Ok (l ++ items).

Section Pages.
(** The request for the next page and its execution
    ([self._execute_query(self._get_list_request(..), iterate_list_pages=False)][method],
    smartprotocol.py:391-397), which differs between SMART and SMARTCAM. *)
Variable next_page : string -> json -> Z -> M world json.

(** The while loop, smartprotocol.py:390-406.  Every turn that goes on makes the
    list longer, so [sum - length] turns suffice: with that fuel the [O] branch
    is only reached when the loop condition is false (see Smart_Proofs). *)
Fixpoint page_loop (fuel : nat) (method : string) (params : json)
    (name : string) (sum : Z) (l : list json) : M world (list json) :=
  if Z.of_nat (length l) <? sum then
    match fuel with
    | O => mret l
    | S fuel' =>
        do! next_batch <- next_page method params (Z.of_nat (length l)) ;;
        do! v <- mlift (jitem name next_batch) ;;
        if negb (truthy v) then mret l
        else do! l' <- mlift (extend l v) ;; page_loop fuel' method params name sum l'
    end
  else mret l.

(** _handle_response_lists, smartprotocol.py:366-406, for a truthy result that
    is not an error code; returns the result as changed in place.
    [next(iter([]))] inside a coroutine surfaces as RuntimeError. *)
Definition handle_response_lists (method : string) (params : json) (result : json)
  : M world json :=
  do! has <- mlift (jcontains "start_index" result) ;;
  if negb has then mret result
  else match result with
  | JObj d =>
      match dget "sum" d with
      | None | Some JNull => mret result
      | Some sum =>
          match first_list_key d with
          | None => mfail PyRuntime
          | Some name =>
              match dget name d, as_int sum with
              | Some (JArr l), Some n =>
                  do! l' <- page_loop (Z.to_nat (n - Z.of_nat (length l))) method params name n l ;;
                  mret (JObj (dset name (JArr l') d))
              | _, _ => mfail PyTypeError
              end
          end
      end
  | _ => mfail PyAttributeError
  end.
End Pages.

(** ** Several methods at once *)

(** smartprotocol.py:214-218 *)
Definition multi_requests (requests : dict json) : list (string * option json) :=
  map (fun kv => (fst kv, eff_params (snd kv)))
      (filter (fun kv => negb (smem (fst kv) force_single_request)) requests).

(** [range(0, end, step)] with slices [i : i + step], smartprotocol.py:234-235;
    a negative step gives no batch. *)
Definition batch_starts (end_ step : Z) : list Z :=
  if step <=? 0 then []
  else map (fun k => Z.of_nat k * step) (seq 0 (Z.to_nat ((end_ + step - 1) / step))).
Definition slice {A} (i step : Z) (l : list A) : list A :=
  firstn (Z.to_nat step) (skipn (Z.to_nat i) l).
Definition batches (requests : dict json) (step : Z) : list (list (string * option json)) :=
  map (fun i => slice i step (multi_requests requests))
      (batch_starts (Z.of_nat (length requests)) step).

Section Multi.
(** What is done to a truthy result before it is stored: paging when
    iterate_list_pages is set, nothing otherwise. *)
Variable handle_list : string -> json -> json -> M world json.

(** smartprotocol.py:222-232: batching disabled *)
Fixpoint unbatched (raise_on_error : bool) (reqs : list (string * option json))
    (acc : dict rval) : M world (dict rval) :=
  match reqs with
  | [] => mret acc
  | (method, params) :: rest =>
      do! resp <- send (Single method params) ;;
      do! code <- mlift (handle_response_error_code resp raise_on_error) ;;
      do! v <- mlift (match code with
                      | Some c => Ok (RCode c)
                      | None => let! j := dindex "result" resp in Ok (RJson j)
                      end) ;;
      unbatched raise_on_error rest (dset method v acc)
  end.

(** One element of "responses", smartprotocol.py:279-303.  A reply whose method
    is neither falsy nor a string is not modelled (treated as TypeError). *)
Definition store_response (requests : dict json) (raise_on_error : bool)
    (response : json) (acc : dict rval) : M world (dict rval) :=
  match response with
  | JObj r =>
      let m := match dget "method" r with Some v => v | None => JNull end in
      if negb (truthy m) then mret acc
      else match m with
      | JStr method =>
          do! code <- mlift (handle_response_error_code r raise_on_error) ;;
          match code with
          | Some c => mret (dset method (RCode c) acc)
          | None =>
              let result := match dget "result" r with Some v => v | None => JNull end in
              let params := match dget method requests with Some p => p | None => JNull end in
              let request_params := if truthy params then params else JNull in
              do! result' <- (if truthy result then handle_list method request_params result
                              else mret result) ;;
              mret (dset method (RJson result') acc)
          end
      | _ => mfail PyTypeError
      end
  | _ => mfail PyAttributeError
  end.

Fixpoint store_responses (requests : dict json) (raise_on_error : bool)
    (responses : list json) (acc : dict rval) : M world (dict rval) :=
  match responses with
  | [] => mret acc
  | r :: rest =>
      do! acc' <- store_response requests raise_on_error r acc ;;
      store_responses requests raise_on_error rest acc'
  end.

(** smartprotocol.py:259-276: the code of the whole batch *)
Definition check_batch (resp : dict json) : M world unit :=
  match handle_response_error_code resp true with
  | Ok _ => mret tt
  | Err e =>
      if is_device_error e then
        do! b <- get_batch ;;
        match e with
        | KDevice (Some c) | KAuth (Some c) | KRetry (Some c) =>
            if (zmem c [JSON_DECODE_FAIL_ERROR; INTERNAL_UNKNOWN_ERROR]) && negb (b =? 1)
            then do! _ <- set_batch 1 ;; mfail (KRetry None)
            else mfail e
        | _ => mfail e
        end
      else mfail e
  end.

(** smartprotocol.py:234-303 *)
Fixpoint send_batches (requests : dict json) (raise_on_error : bool)
    (bs : list (list (string * option json))) (acc : dict rval) : M world (dict rval) :=
  match bs with
  | [] => mret acc
  | b :: rest =>
      do! resp <- send (Batch b) ;;
      do! _ <- check_batch resp ;;
      do! result <- mlift (dindex "result" resp) ;;
      do! rs <- mlift (jitem "responses" result) ;;
      do! responses <- mlift (jiter rs) ;;
      do! acc' <- store_responses requests raise_on_error responses acc ;;
      send_batches requests raise_on_error rest acc'
  end.

(** smartprotocol.py:305-316: query what is still missing one by one *)
Fixpoint query_missing (raise_on_error : bool) (requests : dict json)
    (acc : dict rval) : M world (dict rval) :=
  match requests with
  | [] => mret acc
  | (method, params) :: rest =>
      if dmem method acc then query_missing raise_on_error rest acc
      else
        do! resp <- send (Single method (eff_params params)) ;;
        do! code <- mlift (handle_response_error_code resp raise_on_error) ;;
        let v := match code with
                 | Some c => RCode c
                 | None => RJson (match dget "result" resp with Some v => v | None => JNull end)
                 end in
        query_missing raise_on_error rest (dset method v acc)
  end.

(** _execute_multiple_query, smartprotocol.py:201-316 *)
Definition execute_multiple_query (requests : dict json) : M world (dict rval) :=
  let raise_on_error := Nat.eqb (length requests) 1 in
  do! step <- get_batch ;;
  if step =? 1 then unbatched raise_on_error (multi_requests requests) []
  else
    do! acc <- send_batches requests raise_on_error (batches requests step) [] ;;
    query_missing raise_on_error requests acc.
End Multi.

(** SmartProtocol._get_list_request, smartprotocol.py:361-364, executed without paging *)
Definition smart_next_page (method : string) (params : json) (start : Z) : M world json :=
  single_query method (JObj [("start_index"%string, JInt start)]).

(** SmartProtocol._execute_query on a dictionary request with
    iterate_list_pages=True, smartprotocol.py:318-359 *)
Definition smart_execute_query (requests : dict json) : M world (dict rval) :=
  match requests with
  | [(method, params)] =>
      do! result <- single_query method params ;;
      do! result' <- (if truthy result
                      then handle_response_lists smart_next_page method params result
                      else mret result) ;;
      mret [(method, RJson result')]
  | _ => execute_multiple_query (handle_response_lists smart_next_page) requests
  end.
End Proto.
Arguments world : clear implicits.
