(** SMART error codes.  Models kasa/exceptions.py:62-202 and
    SmartProtocol._handle_response_error_code, smartprotocol.py:408-436
    (SmartCamProtocol's copy, smartcamprotocol.py:60-88, is identical). *)
From Verif Require Import Base Py.
Open Scope Z_scope.

(** Members of SmartErrorCode, exceptions.py:74-183, in source order. *)
Definition smart_error_codes : list Z :=
  [ 0;
    9999; 1200; 1112; 1111; 1100; 1003; 1002; 1001; 1000;
    -1; -1001; -1002; -1003; -1004; -1005; -1006; -1007; -1008; -1010; -1101;
    -1201; -1301; -1302; -1401; -1402; -1501; -1601; -1602; -1603; -1701; -1702;
    -1801; -1802; -1803; -1804; -1805; -1901; -1902; -1903; -2001; -2002; -2003;
    -2101; -2201; -2202; -2301; -2302;
    -3001;
    -40101; -40209;
    -40401; -40411; -40412; -40404; -40405; -40406; -40407; -40408; -40409;
    -90000; 40108; -40106; -40109; -40413; -40210; -40321;
    -69051; -69052; -69053; -69055; -69056; -69057; -69060; -69061; -69062;
    -69063; -69064; -69065; -69076; -69077; -69078; -69079; -69080; -69081;
    -69082; -69083; -69084; -69085; -69094; -69095; -69096; -69097; -72101;
    -100000; -100001 ].

Definition INTERNAL_UNKNOWN_ERROR : Z := -100000.   (* exceptions.py:181 *)
Definition INTERNAL_QUERY_ERROR : Z := -100001.     (* exceptions.py:183 *)
Definition JSON_DECODE_FAIL_ERROR : Z := -1003.     (* exceptions.py:92 *)

(** SMART_RETRYABLE_ERRORS, exceptions.py:186-193 *)
Definition smart_retryable_errors : list Z := [1002; 1112; -1001; 9999; -40401; -40413].
(** SMART_AUTHENTICATION_ERRORS, exceptions.py:195-202 *)
Definition smart_authentication_errors : list Z := [-1501; 1111; -1005; 1100; 1003; -40412].

Definition zmem (z : Z) (l : list Z) : bool := existsb (Z.eqb z) l.

(** SmartErrorCode.from_int with the ValueError handler,
    exceptions.py:68-72 and smartprotocol.py:412-418.  [from_int] is cached,
    so an unhashable value (list, dict) raises TypeError, which is not caught.
    A float equal to a code is not modelled (treated as unknown). *)
Definition error_code_of (raw : json) : res Z :=
  match raw with
  | JInt z => Ok (if zmem z smart_error_codes then z else INTERNAL_UNKNOWN_ERROR)
  | JBool b => Ok (if b then INTERNAL_UNKNOWN_ERROR else 0)
  | JNull | JFloat _ | JStr _ => Ok INTERNAL_UNKNOWN_ERROR
  | JArr _ | JObj _ => Err PyTypeError
  end.

(** The exception for a code that is not SUCCESS, smartprotocol.py:432-436 *)
Definition code_exn (c : Z) : exn :=
  if zmem c smart_retryable_errors then KRetry (Some c)
  else if zmem c smart_authentication_errors then KAuth (Some c)
  else KDevice (Some c).

(** smartprotocol.py:411-436.  [Ok None]: success, the reply is untouched.
    [Ok (Some c)]: not raising, resp_dict["result"] becomes the code [c]. *)
Definition handle_response_error_code (resp : dict json) (raise_on_error : bool)
  : res (option Z) :=
  let! c := error_code_of (match dget "error_code" resp with Some v => v | None => JNull end) in
  if (c =? 0)%Z then Ok None
  else if negb raise_on_error then Ok (Some c)
  else Err (code_exn c).
