(** The HTTP client.  Models kasa/httpclient.py.  No proofs. *)
From Verif Require Import Base Py Xor_Model.
Open Scope Z_scope.

(** Times are integers, in milliseconds of the monotonic clock. *)
Definition WAIT : Z := 250.                  (* httpclient.py:37 *)

(** What an exchange comes to.  The failures are the classes of exception the code
    tells apart: ServerDisconnectedError; ClientOSError; ServerTimeoutError (and its
    subclasses); the asyncio TimeoutError of the total timeout, which is none of
    these; any other Exception; cancellation. *)
Inductive fate :=
| FReply (status : Z) (body : bytes)
| FDisconnected | FOsError | FServerTimeout | FTotalTimeout | FOther | FCancelled.

(** The response data: bytes, or the JSON read from them. *)
Inductive payload := PRaw (b : bytes) | PJson (v : json).

(** _wait_between_requests <> 0 and _last_request_time, httpclient.py:45-46; the client sessions,
    41 and 48-57: [own] is the session created here, [made] counts them, [closed]
    lists those closed, [used] the session of each request (None: the caller's). *)
Record http := mkHttp { waiting : bool; last_time : Z; own : option nat; made : nat;
                        closed : list nat; used : list (option nat) }.
Definition init : http := mkHttp false 0 None 0 [] [].

Section Http.
(** json.loads(b.decode()), None when either raises *)
Variable json_loads : bytes -> option json.
(** config.http_client is an aiohttp.ClientSession *)
Variable supplied : bool.

(** client, httpclient.py:48-57 *)
Definition client (h : http) : http :=
  if supplied then mkHttp (waiting h) (last_time h) (own h) (made h) (closed h) (used h ++ [None])
  else match own h with
       | Some n => mkHttp (waiting h) (last_time h) (own h) (made h) (closed h) (used h ++ [Some n])
       | None => mkHttp (waiting h) (last_time h) (Some (made h)) (S (made h)) (closed h) (used h ++ [Some (made h)])
       end.

(** The wait before a request, httpclient.py:75-85: [now] is the clock at the call, [late] how
    much longer than asked the sleep takes. *)
Definition start_time (h : http) (now late : Z) : Z :=
  if waiting h then
    let gap := now - last_time h in
    if gap <? WAIT then now + (WAIT - gap) + late else now
  else now.

(** post, httpclient.py:59-162; [took]: from the start of the request until it ends.  Gives the
    start and the outcome.  [want_json]: bool(json). *)
Definition post (h : http) (want_json : bool) (now late took : Z) (f : fate) : http * Z * res (Z * payload) :=
  let start := start_time h now late in
  let finish := start + took in
  let h := client h in
  let ended (h : http) : http :=                                                   (* 158-160 *)
    if waiting h then mkHttp true finish (own h) (made h) (closed h) (used h) else h in
  match f with
  | FReply status body =>
      if status =? 200 then
        if want_json then
          match json_loads body with
          | Some v => (ended h, start, Ok (status, PJson v))
          | None => (h, start, Err KKasa)                                          (* 152-155 *)
          end
        else (ended h, start, Ok (status, PRaw body))
      else
        let data :=
          if want_json && (match body with [] => false | _ => true end)
          then match json_loads body with Some v => PJson v | None => PRaw body end
          else PRaw body in
        (ended h, start, Ok (status, data))
  | FDisconnected | FOsError =>                                                    (* 133-145 *)
      (mkHttp true finish (own h) (made h) (closed h) (used h), start, Err KConn)
  | FServerTimeout => (h, start, Err KTimeout)                                     (* 146-151 *)
  | FTotalTimeout | FOther => (h, start, Err KKasa)                                (* 152-155 *)
  | FCancelled => (h, start, Err Cancelled)
  end.

(** close, httpclient.py:173-178 *)
Definition close (h : http) : http :=
  match own h with
  | Some n => mkHttp (waiting h) (last_time h) None (made h) (closed h ++ [n]) (used h)
  | None => h
  end.

Inductive event := EPost (want_json : bool) (now late took : Z) (f : fate) | EClose.
(** A finished exchange: its start, its end and its fate. *)
Record exchange := mkEx { x_start : Z; x_end : Z; x_fate : fate }.
Definition step (s : http * list exchange) (e : event) : http * list exchange :=
  let (h, xs) := s in
  match e with
  | EPost j now late took f =>
      let '(h', start, _) := post h j now late took f in (h', xs ++ [mkEx start (start + took) f])
  | EClose => (close h, xs)
  end.
Definition run (es : list event) : http * list exchange := fold_left step es (init, []).
End Http.
