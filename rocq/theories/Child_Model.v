(** Queries to children behind a hub.
    Models _ChildProtocolWrapper (kasa/protocols/smartprotocol.py:443-521) and
    _ChildCameraProtocolWrapper (kasa/protocols/smartcamprotocol.py:202-262). *)
From Verif Require Import Base Py Codes_Model Smart_Model.
Open Scope string_scope.

(** A request: a method name, or a dictionary of methods and their params. *)
Inductive child_request := CName (method : string) | CDict (request : dict json).

(** _get_method_and_params_for_request, smartprotocol.py:459-481 *)
Definition method_and_params (request : child_request) : string * json :=
  match request with
  | CDict [(method, params)] => (method, params)
  | CDict d =>
      ("multipleRequest",
       JObj [("requests", JArr (map (fun kv =>
          JObj (if truthy (snd kv) then [("method", JStr (fst kv)); ("params", snd kv)]
                else [("method", JStr (fst kv))])) d))])
  | CName method => (method, JNull)
  end.

(** smartprotocol.py:491-500 *)
Definition wrap_child (device_id : string) (request : child_request) : dict json :=
  let (method, params) := method_and_params request in
  [("control_child",
    JObj [("device_id", JStr device_id);
          ("requestData", JObj [("method", JStr method); ("params", params)])])].

(** The loop over the child's replies, smartprotocol.py:508-514.  A reply whose
    method is not a string is not modelled (treated as TypeError). *)
Fixpoint child_multi (responses : list json) (acc : dict rval) : res (dict rval) :=
  match responses with
  | [] => Ok acc
  | JObj r :: rest =>
      let! m := dindex "method" r in
      let! code := handle_response_error_code r false in
      match m with
      | JStr method =>
          child_multi rest (dset method
            (match code with
             | Some c => RCode c
             | None => RJson (match dget "result" r with Some v => v | None => JNull end)
             end) acc)
      | _ => Err PyTypeError
      end
  | _ :: _ => Err PyTypeError
  end.

(** if x: x.get(k) else None: smartprotocol.py:505-507 *)
Definition get_if_truthy (k : string) (v : json) : res json :=
  if truthy v then jget k v else Ok JNull.

(** smartprotocol.py:502-518; [response] is what the hub's query returned.
    The hub's own errors are raised by its query. *)
Definition unwrap_child (method : string) (response : dict json) : res (dict rval) :=
  let result := match dget "control_child" response with Some v => v | None => JNull end in
  let! response_data := get_if_truthy "responseData" result in
  if truthy response_data then
    let! result := jget "result" response_data in
    let! multi_responses := get_if_truthy "responses" result in
    if truthy multi_responses then
      let! l := jiter multi_responses in child_multi l []
    else
      match response_data with
      | JObj rd =>
          let! _ := handle_response_error_code rd true in
          Ok [(method, RJson result)]
      | _ => Err PyAttributeError
      end
  else Ok [(method, RJson result)].

(** _query, smartprotocol.py:489-518, over the hub's query *)
Definition child_query (hub : dict json -> res (dict json)) (device_id : string)
    (request : child_request) : res (dict rval) :=
  let! response := hub (wrap_child device_id request) in
  unwrap_child (fst (method_and_params request)) response.

(** ** Children of a camera hub *)

(** smartcamprotocol.py:228-242 *)
Definition wrap_cam (device_id : string) (request : dict json) : dict json :=
  [("multipleRequest", JObj [("requests", JArr (map (fun kv =>
      JObj [("method", JStr "controlChild");
            ("params", JObj [("childControl",
               JObj [("device_id", JStr device_id);
                     ("request_data", JObj [("method", JStr (fst kv)); ("params", snd kv)])])])])
      request))])].

(** The loop, smartcamprotocol.py:252-258; [methods[index_id]] is past the end
    when there are more replies than requests. *)
Fixpoint cam_multi (raise_on_error : bool) (responses : list json) (methods : list string)
    (acc : dict rval) : res (dict rval) :=
  match responses with
  | [] => Ok acc
  | response :: rest =>
      let! result := jitem "result" response in
      let! response_data := jitem "response_data" result in
      match methods with
      | [] => Err PyIndexError
      | method :: methods' =>
          match response_data with
          | JObj rd =>
              let! code := handle_response_error_code rd raise_on_error in
              cam_multi raise_on_error rest methods' (dset method
                (match code with
                 | Some c => RCode c
                 | None => RJson (match dget "result" rd with Some v => v | None => JNull end)
                 end) acc)
          | _ => Err PyAttributeError
          end
      end
  end.

(** smartcamprotocol.py:222-258 *)
Definition cam_child_query (hub : dict json -> res (dict json)) (device_id : string)
    (request : child_request) : res (dict rval) :=
  match request with
  | CName _ => Err KKasa
  | CDict d =>
      let! response := hub (wrap_cam device_id d) in
      let! m := dindex "multipleRequest" response in
      let! rs := jitem "responses" m in
      let! responses := jiter rs in
      cam_multi (Nat.eqb (length d) 1) responses (dkeys d) []
  end.
