(** Specification vocabulary for C167: the reason a camera gives for refusing a login. *)
From Verif Require Import Base Py Codes_Model Crypto_Model Cam_Model Cam_Spec.
Open Scope string_scope.
Open Scope list_scope.
Open Scope Z_scope.

(** A part of a reply that is an object, or left out *)
Definition part (k : string) (j : json) : option json :=
  match field k j with
  | None => Some (JObj [])
  | Some (JObj d) => Some (JObj d)
  | Some _ => None
  end.
(** A number under "code", or nothing *)
Definition number_in (j : json) : option (option Z) :=
  match field "code" j with
  | None | Some JNull => Some None
  | Some (JInt z) => Some (Some z)
  | Some _ => None
  end.
(** A reply in the cameras' format, and the reason it gives: data.code, or else result.data.code *)
Definition gives (j : json) (why : option Z) : Prop :=
  exists outer result inner a b,
    part "data" j = Some outer /\ part "result" j = Some result /\ part "data" result = Some inner
    /\ number_in outer = Some a /\ number_in inner = Some b
    /\ why = match a with Some z => Some z | None => b end.
(** The greeting is refused, for a reason: no nonce is offered (-40413) and no other kind of login. *)
Definition refuses (r : reply) (why : option Z) : Prop :=
  exists j c, body r = Some j /\ j <> JObj [] /\ code_in j = Some c /\ c <> -40413 /\ ~ asks_plain r /\ gives j why.
(** The camera says that it is blocked: -40404. *)
Definition says_blocked (why : option Z) : Prop := why = Some (-40404).
(** The reply offers a nonce, but confirms no hash of the password in force. *)
Definition other_password (md5_hex sha256_hex : bytes -> string) (cfg : config) (r : reply) (n : string) : Prop :=
  exists j server confirm, body r = Some j /\ code_in j = Some (-40413)
    /\ data_field "nonce" j = Some (JStr server) /\ data_field "device_confirm" j = Some confirm
    /\ confirm <> JStr (expected_confirm sha256_hex n server (sha256_hex (lit (secret cfg))))
    /\ confirm <> JStr (expected_confirm sha256_hex n server (md5_hex (lit (secret cfg)))).
(** There is no session: the transport is new, or has just been closed or reset. *)
Definition no_session (es : list event) : Prop := es = [] \/ exists es0, es = es0 ++ [EReset].
(** A user name is given. *)
Definition named (cfg : config) : Prop := exists u, user_name cfg = Some u /\ u <> "".
