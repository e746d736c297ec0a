(** Specification vocabulary for camera queries (C80, C81). *)
From Verif Require Import Base Py Codes_Model Smart_Model Smart_Spec.
Open Scope string_scope.
Open Scope list_scope.
Open Scope Z_scope.

(** The error raised for a code reported by the device. *)
Definition failure (c : Z) : exn :=
  match kind_of c with
  | KindRetryable => KRetry (Some (reported_code c))
  | KindAuthentication => KAuth (Some (reported_code c))
  | _ => KDevice (Some (reported_code c))
  end.
(** A reply reporting no error; hubs leave the code out. *)
Definition accepted (reply : dict json) : Prop :=
  dget "error_code" reply = None \/ dget "error_code" reply = Some (JInt 0).

(** Camera pages are asked for within the section the list was asked for with. *)
Definition page_params (module : string) (k : Z) : json := JObj [(module, JObj [("start_index", JInt k)])].
Section Device.
Variable ans : string -> option json -> answer.
(** Asked for the items from [k] on, the device gives at least one of them. *)
Definition cam_serves (m module name : string) (L : list json) : Prop :=
  forall k, (k < length L)%nat -> exists pg n,
    ans m (Some (page_params module (Z.of_nat k))) = AResult (JObj pg) /\
    (1 <= n)%nat /\ dget name pg = Some (JArr (firstn n (skipn k L))).
(** The requests cameras have an own format for. *)
Definition own_format : list string := ["get"; "set"; "do"; "multipleRequest"].
(** The complete value of a method asked with [q]: an error code, a result, or for a paged list
    the first reply with the complete list in it. *)
Inductive cam_whole (m : string) (q : json) : rval -> Prop :=
| cam_simple v : simple ans m (eff_params q) v -> cam_whole m q v
| cam_paged module x rest d name l L :
    q = JObj ((module, x) :: rest) -> ans m (eff_params q) = AResult (JObj d) -> dwf d ->
    dget "start_index" d <> None -> dget "sum" d = Some (JInt (Z.of_nat (length L))) ->
    first_list d name l -> (exists n, l = firstn n L) -> cam_serves m module name L -> ~ In m own_format ->
    cam_whole m q (RJson (JObj (dset name (JArr L) d))).
End Device.

(** The name of a request made of words: getDeviceInfo from device and info. *)
Definition capital (w : string) : string :=
  match w with
  | String c w' => String (if ((97 <=? N_of_ascii c) && (N_of_ascii c <=? 122))%N then ascii_of_N (N_of_ascii c - 32) else c) w'
  | EmptyString => EmptyString
  end.
Definition camel (prefix : string) (words : list string) : string :=
  (prefix ++ String.concat "" (map capital words))%string.
(** A word starts with a lower case letter and contains no upper case letter. *)
Definition lower_letter (c : ascii) : Prop := (97 <= N_of_ascii c <= 122)%N.
Fixpoint no_upper (s : string) : Prop :=
  match s with EmptyString => True | String c s' => ~ (65 <= N_of_ascii c <= 90)%N /\ no_upper s' end.
Definition word (s : string) : Prop := match s with EmptyString => False | String c s' => lower_letter c /\ no_upper s' end.
(** Seven getters cameras take as commands, with the section they are sent in. *)
Definition asked_by_do : list (string * string) :=
  [("getSdCardFormatStatus", "get_sd_card_format_status"); ("getConnectionType", "get_connection_type");
   ("getUserID", "get_user_i_d"); ("getP2PSharePassword", "get_p2_p_share_password");
   ("getAESEncryptKey", "get_a_e_s_encrypt_key"); ("getFirmwareAFResult", "get_firmware_a_f_result");
   ("getWhitelampStatus", "get_whitelamp_status")].
