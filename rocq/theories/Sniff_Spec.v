(** Specification: recorded traffic and what is said in it (C158, C159). *)
From Verif Require Import Base Py Crypto_Model Klap_Model Sniff_Model.
From Verif Require Xor_Model.
Open Scope string_scope.
Open Scope list_scope.
Open Scope Z_scope.

(** ** A recorded conversation between a client at [src] and a device at [dev] *)
(** A number in decimal digits *)
Definition is_digit (d : Z) : Prop := 0 <= d <= 9.
Definition text_of (ds : list Z) : string := string_of_list_ascii (map (fun d => ascii_of_N (Z.to_N (d + 48))) ds).
Definition value (ds : list Z) : Z := fold_left (fun a d => 10 * a + d) ds 0.
(** The query of a request with the number [n], as the client writes it *)
Definition numbered (q : option string) (n : Z) : Prop :=
  exists ds, ds <> [] /\ Forall is_digit ds /\
    (0 <= n /\ value ds = n /\ q = Some ("seq=" ++ text_of ds)%string \/ n < 0 /\ value ds = - n /\ q = Some ("seq=-" ++ text_of ds)%string).
(** A request posted by the client to a path of the device, with its data *)
Definition posts (src dev path : string) (data : bytes) (p : packet) : Prop :=
  p_src p = src /\ p_dst p = dev /\ p_http p = true /\ p_path p = Some path /\ p_data p = Some data.
(** The response to it, by the address it names *)
Definition responds (r p : packet) (data : bytes) : Prop :=
  p_http r = true /\ (exists u, p_full p = Some u /\ p_for r = Some u) /\ p_data r = Some data.
(** Packets of others; and those that are passed by while the response to [p] is looked for *)
Definition foreign (src : string) (p : packet) : Prop := p_src p <> src \/ p_http p = false \/ (p_path p = None /\ p_uri p = None).
Definition unrelated (r p : packet) : Prop :=
  p_http r = false \/ (exists u v, p_full p = Some u /\ p_uri p = Some v /\ p_for r <> Some u /\ exists w, p_uri r = Some w /\ w <> v).

Section Klap.
Variables sha256 : bytes -> bytes.
Variables enc_block : bytes -> bytes -> bytes.
(** What the device proves to know in its answer to the client's seed *)
Definition device_proof (l r auth : bytes) : bytes := sha256 (l ++ r ++ auth).
(** The client encrypts [m] as the message with the number [n] of the session of these seeds and hash. *)
Definition encrypts (l r auth : bytes) (n : Z) (m payload : bytes) : Prop :=
  let s := new_session sha256 l r auth in
  exists s', klap_encrypt sha256 enc_block (mkSess (s_key s) (s_iv s) (n - 1) (s_sig s) (s_cipher s)) m = (s', Ok (payload, n)).
(** The packets record a conversation in which the client says [ms]; [cur]: the session at their start.
    [greets]: what the queries of the messages of handshakes are like; [numbers]: which numbers are used. *)
Inductive records (src dev : string) (auths : bytes -> Prop) (greets : option string -> Prop) (numbers : Z -> Prop)
  : option (bytes * bytes * bytes) -> list packet -> list bytes -> Prop :=
| rec_end cur : records src dev auths greets numbers cur [] []
| rec_foreign cur p ps ms : foreign src p -> records src dev auths greets numbers cur ps ms -> records src dev auths greets numbers cur (p :: ps) ms
| rec_handshake1 cur l r auth p q between ps ms :
    List.length l = 16%nat -> List.length r = 16%nat -> auths auth ->
    posts src dev "/app/handshake1" l p -> greets (p_query p) ->
    Forall (fun x => unrelated x p) between -> responds q p (r ++ device_proof l r auth) ->
    records src dev auths greets numbers (Some (l, r, auth)) ps ms -> records src dev auths greets numbers cur (p :: between ++ q :: ps) ms
| rec_handshake2 cur data p ps ms :
    posts src dev "/app/handshake2" data p -> greets (p_query p) ->
    records src dev auths greets numbers cur ps ms -> records src dev auths greets numbers cur (p :: ps) ms
| rec_request l r auth p n m payload ps ms :
    posts src dev "/app/request" payload p -> numbers n -> numbered (p_query p) n -> encrypts l r auth n m payload ->
    records src dev auths greets numbers (Some (l, r, auth)) ps ms -> records src dev auths greets numbers (Some (l, r, auth)) (p :: ps) (m :: ms).
End Klap.
(** Credentials that are tried: the user's and the built-in ones; a hash is of these *)
Definition tried (c x : credentials) : Prop := x = c \/ exists k t, In (k, t) default_credentials_b64 /\ x = get_default_credentials t.
Definition hash_of (sha1 sha256 : bytes -> bytes) (x : credentials) : bytes := sha256 (sha1 (username x) ++ sha1 (password x)).
Definition known_auth (sha1 sha256 : bytes -> bytes) (c : credentials) (a : bytes) : Prop := exists x, tried c x /\ a = hash_of sha1 sha256 x.
(** No two of the hashes that are tried are proved in the same way. *)
Definition told_apart (sha1 sha256 : bytes -> bytes) (c : credentials) : Prop := forall l r a b,
  known_auth sha1 sha256 c a -> known_auth sha1 sha256 c b -> device_proof sha256 l r a = device_proof sha256 l r b -> a = b.
(** Queries with a number that fits, not negative *)
Definition counted (q : option string) : Prop := exists n, 0 <= n < 2 ^ 31 /\ numbered q n.
(** What is read from messages *)
Definition read_all {J} (loads : bytes -> option J) (ms : list bytes) : list J := flat_map (fun m => match loads m with Some j => [j] | None => [] end) ms.

(** ** Recorded traffic of legacy devices *)
(** A segment of a connection with a legacy device that holds the whole message [m] *)
Definition segment (f : frame) (m : bytes) : Prop :=
  f_ip f = true /\ f_proto f = 6 /\ (f_sport f = 9999 \/ f_dport f = 9999) /\ Xor_Model.encrypt m = Ok (f_data f).
(** Other frames, and segments without data *)
Definition other (f : frame) : Prop :=
  f_ip f = false \/ f_proto f <> 6 \/ (f_sport f <> 9999 /\ f_dport f <> 9999) \/ (List.length (f_data f) <= 4)%nat.
Inductive traffic : list frame -> list bytes -> Prop :=
| tr_end : traffic [] []
| tr_other f fs ms : other f -> traffic fs ms -> traffic (f :: fs) ms
| tr_said f m fs ms : segment f m -> traffic fs ms -> traffic (f :: fs) (m :: ms).

(** What a message of a legacy conversation consists of: modules, with their commands unless there is an
    error for the whole of it *)
Definition modules_in (j : json) : dict json := match j with JObj d => filter (fun kv => negb (String.eqb (fst kv) "context")) d | _ => [] end.
Definition context_in (j : json) : json := match j with JObj d => match dget "context" d with Some c => c | None => JStr "" end | _ => JNull end.
Definition commands_in (cmds : json) : dict json := match cmds with JObj l => if dmem "err_code" l then [] else l | _ => [] end.
(** Whether a response has a code, and whether that is zero *)
Definition zero (c : json) : bool := match c with JInt z => z =? 0 | JBool b => negb b | JFloat f => String.eqb f "0.0" || String.eqb f "-0.0" | _ => false end.
Definition outcome (r : json) : option bool := match r with JObj o => option_map zero (dget "err_code" o) | _ => None end.
(** The lines for a message *)
Definition lines_for (j : json) : list line :=
  flat_map (fun mc : string * json =>
    match snd mc with
    | JObj l => if dmem "err_code" l then [LModule (snd mc)]
                else flat_map (fun cr : string * json => match snd cr with JNull => [] | r => [LCommand (context_in j) (fst mc) (fst cr) r (outcome r)] end) l
    | _ => []
    end) (modules_in j).
(** Well-formed messages: objects of objects; [named_errors]: an error comes with a message *)
Definition named_errors (r : json) : Prop := forall o, r = JObj o -> outcome r = Some false -> dget "err_msg" o <> None.
Definition well_formed (j : json) : Prop :=
  (exists d, j = JObj d) /\
  Forall (fun mc : string * json => exists l, snd mc = JObj l /\
    Forall (fun cr : string * json => snd cr = JNull \/ exists o, snd cr = JObj o) (commands_in (snd mc))) (modules_in j).
Definition errors_named (j : json) : Prop :=
  Forall (fun mc : string * json => Forall (fun cr : string * json => named_errors (snd cr)) (commands_in (snd mc))) (modules_in j).
(** A counter has how often each text is in a list. *)
Definition tally (l : list string) (d : dict Z) : Prop :=
  forall k, dget k d = match count_occ string_dec l k with O => None | n => Some (Z.of_nat n) end.
Definition all_modules (js : list json) : list string := flat_map (fun j => dkeys (modules_in j)) js.
Definition all_commands (js : list json) : list (string * string) :=
  flat_map (fun j => flat_map (fun mc : string * json => map (fun c => (fst mc, c)) (dkeys (commands_in (snd mc)))) (modules_in j)) js.
Definition full_name (mc : string * string) : string := (fst mc ++ "." ++ snd mc)%string.
Definition failed (r : json) : bool := match outcome r with Some false => true | _ => false end.
Definition all_responses (js : list json) : list json :=
  flat_map (fun j => flat_map (fun mc : string * json => map snd (commands_in (snd mc))) (modules_in j)) js.
(** The text of a message says [j]. *)
Definition says (text : bytes -> option string) (loads : string -> option json) (m : bytes) (j : json) : Prop :=
  exists s, text m = Some s /\ s <> ""%string /\ loads s = Some j /\ truthy j = true.
