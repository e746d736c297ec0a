(** Queries to cameras: kasa/protocols/smartcamprotocol.py:26-200.  Batches and pages are those of
    [Smart_Model].  No proofs. *)
From Verif Require Import Base Py Codes_Model Factory_Model Smart_Model.
Open Scope string_scope.
Open Scope list_scope.

(** GET_METHODS_AS_DO, smartcamprotocol.py:28-36 *)
Definition get_methods_as_do : list string :=
  ["getSdCardFormatStatus"; "getConnectionType"; "getUserID"; "getP2PSharePassword"; "getAESEncryptKey";
   "getFirmwareAFResult"; "getWhitelampStatus"].
(** SingleRequest, smartcamprotocol.py:39-46 *)
Record single := mkSingle { s_type : string; s_name : string; s_param : string; s_request : dict json }.
(** _get_smart_camera_single_request, smartcamprotocol.py:94-112, for the one entry of the request.
    An empty dictionary makes next(iter(..)) raise StopIteration, which leaves a coroutine as
    RuntimeError; a section that is no dictionary is taken as TypeError. *)
Definition get_single (method : string) (value : json) : res single :=
  if String.eqb method "multipleRequest" then
    Ok (mkSingle "multi" "multipleRequest" "" [("method", JStr "multipleRequest"); ("params", value)])
  else match value with
  | JObj ((param, v) :: _) => Ok (mkSingle method method param (dset param v [("method", JStr method)]))
  | JObj [] => Err PyRuntime
  | _ => Err PyTypeError
  end.
(** _make_snake_name, smartcamprotocol.py:114-118, ASCII letters only *)
Definition is_upper (c : ascii) : bool := let n := N_of_ascii c in ((65 <=? n) && (n <=? 90))%N.
Fixpoint snake (s : string) : string :=
  match s with
  | EmptyString => EmptyString
  | String c s' => if is_upper c then String "_" (String (lower_char c) (snake s')) else String c (snake s')
  end.
Fixpoint lstrip_underscore (s : string) : string :=
  match s with String c s' => if Ascii.eqb c "_" then lstrip_underscore s' else s | EmptyString => EmptyString end.
Definition snake_name (s : string) : string := lstrip_underscore (snake s).
(** _make_smart_camera_single_request, smartcamprotocol.py:120-142 *)
Definition make_single (method : string) : single :=
  let short := stake 3 method in
  if negb (String.eqb short "") && smem short ["get"; "set"] && negb (smem method get_methods_as_do) then
    let param := sdrop 4 (snake_name method) in mkSingle short method param (dset param (JObj []) [("method", JStr short)])
  else let param := snake_name method in mkSingle "do" method param (dset param (JObj []) [("method", JStr "do")]).

(** smartcamprotocol.py:176-200: from the reply to the result *)
Definition single_result (s : single) (reply : dict json) : res (dict rval) :=
  let! _ := (if dmem "error_code" reply then handle_response_error_code reply true else Ok None) in
  let! _ :=
    (if String.eqb (s_type s) "get" then
       match reply with
       | [] => Err PyRuntime
       | (section, v) :: _ =>
           if String.eqb section "" then Err (KDevice None)
           else match v with JObj [] => Err (KDevice None) | _ => Ok tt end
       end
     else Ok tt) in
  if String.eqb (s_type s) "do" then Ok [(s_name s, RJson (JObj reply))]
  else if String.eqb (s_type s) "set" then Ok []
  else if String.eqb (s_type s) "multi" then let! r := dindex "result" reply in Ok [(s_name s, RJson r)]
  else let! r := dindex (s_param s) reply in Ok [(s_name s, RJson (JObj [(s_param s, r)]))].

(** A request: a method name, or a dictionary of methods and their params. *)
Inductive cam_request := QName (method : string) | QDict (request : dict json).
(** smartcamprotocol.py:150 *)
Definition plain_methods : list string := ["get"; "set"; "do"; "multipleRequest"].

Section Cam.
(** The device and transport; [smart_send] for requests in the SMART format, [plain_send] for the
    camera's own (the JSON object as sent). *)
Context {D : Type}.
Variable smart_send : D -> request -> D * res (dict json).
Variable plain_send : D -> dict json -> D * res (dict json).

(** smartcamprotocol.py:159-200; only SMART requests are kept in the log *)
Definition run_single (s : single) : M (world D) (dict rval) :=
  do! reply <- (fun w => let (d', a) := plain_send (wdev w) (s_request s) in (mkW d' (wbatch w) (wlog w), a)) ;;
  mlift (single_result s reply).
(** _execute_query, smartcamprotocol.py:144-200; [handle]: what is done with lists *)
Definition cam_execute (handle : string -> json -> json -> M (world D) json) (r : cam_request) : M (world D) (dict rval) :=
  match r with
  | QName method => run_single (make_single method)
  | QDict [] => mfail PyRuntime
  | QDict ((method, value) :: rest) =>
      if Nat.eqb (length rest) 0 && smem method plain_methods
      then do! s <- mlift (get_single method value) ;; run_single s
      else execute_multiple_query smart_send handle ((method, value) :: rest)
  end.
(** _get_list_request, smartcamprotocol.py:52-58, executed without paging, smartprotocol.py:391-397;
    without params next(iter(None)) is a TypeError *)
Definition cam_next_page (method : string) (params : json) (start : Z) : M (world D) json :=
  match params with
  | JObj ((module, _) :: _) =>
      do! response <- cam_execute (fun _ _ j => mret j)
                        (QDict [(method, JObj [(module, JObj [("start_index", JInt start)])])]) ;;
      do! v <- mlift (dindex method response) ;;
      match v with RJson j => mret j | RCode _ => mfail PyTypeError end
  | JObj [] => mfail PyRuntime
  | _ => mfail PyTypeError
  end.
(** _execute_query with iterate_list_pages=True *)
Definition cam_execute_query : cam_request -> M (world D) (dict rval) := cam_execute (handle_response_lists cam_next_page).
End Cam.
