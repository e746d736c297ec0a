(** The decoders of recorded traffic: devtools/parse_pcap_klap.py and devtools/parse_pcap.py.
    [Klap_Model] has the session, [Xor_Model] the legacy cipher.  No proofs. *)
From Verif Require Import Base Py Crypto_Model Klap_Model.
From Verif Require Xor_Model.
Open Scope string_scope.
Open Scope list_scope.
Open Scope Z_scope.

(** * parse_pcap_klap.py *)
(** A packet as pyshark gives it: the addresses, whether it has an http part, and of that request_uri_path,
    request_uri, request_uri_query, request_full_uri, response_for_uri and file_data, each if there.  The
    data is hexadecimal in the code and bytes here; texts that are not hexadecimal are not modelled. *)
Record packet := mkPacket {
  p_src : string; p_dst : string; p_http : bool; p_path : option string; p_uri : option string; p_query : option string;
  p_full : option string; p_for : option string; p_data : option bytes }.

(** The text behind a prefix *)
Fixpoint after (p s : string) : option string :=
  match p, s with
  | "", _ => Some s
  | String a p, String b s => if Ascii.eqb a b then after p s else None
  | String _ _, "" => None
  end.
Definition digit (c : ascii) : option Z :=
  let n := Z.of_N (N_of_ascii c) in if (48 <=? n) && (n <=? 57) then Some (n - 48) else None.
(** \d+ at the start of a text; only ASCII digits are modelled *)
Fixpoint digits (s : string) : list Z :=
  match s with
  | String c s => match digit c with Some d => d :: digits s | None => [] end
  | "" => []
  end.
(** re.search(r"seq=(\d+)", query), parse_pcap_klap.py:37 *)
Fixpoint search_seq (s : string) : option (list Z) :=
  match (match after "seq=" s with Some r => digits r | None => [] end) with
  | [] => match s with String _ s => search_seq s | "" => None end
  | ds => Some ds
  end.
(** int(..) of digits *)
Definition int_of (ds : list Z) : Z := fold_left (fun a d => 10 * a + d) ds 0.
(** _get_seq_from_query, parse_pcap_klap.py:31-40 *)
Definition get_seq (p : packet) : res Z :=
  match p_query p with
  | None => Err PyOther
  | Some q => match search_seq q with Some ds => Ok (int_of ds) | None => Err PyOther end
  end.
(** An attribute that may be missing *)
Definition attr (o : option string) : res string := match o with Some s => Ok s | None => Err PyAttributeError end.
(** _is_http_response_for_packet, parse_pcap_klap.py:43-55 *)
Definition is_response (r p : packet) : res bool :=
  if negb (p_http r) then Ok false else
  let! same := match p_for r with
               | Some u => let! v := attr (p_full p) in Ok (String.eqb u v)
               | None => Ok false
               end in
  if same then Ok true else
  let! u := attr (p_uri r) in let! v := attr (p_uri p) in Ok (String.eqb u v).

Section Klap.
Variables md5 sha1 sha256 : bytes -> bytes.
Variables dec_block : bytes -> bytes -> bytes.
Variable J : Type.
(** json.loads after .decode with bad characters replaced; [None]: it raises ValueError *)
Variable loads : bytes -> option J.

(** Operator, parse_pcap_klap.py:72-86, without what is not read again *)
Record operator := mkOp { o_local : option bytes; o_remote : option bytes; o_session : option session; o_auth : bytes; o_proof : option bytes; o_seq : Z }.
Definition new_operator (c : credentials) : operator := mkOp None None None (generate_auth_hash md5 sha1 sha256 V2 c) None 0.
Definition with_session (s : option session) (o : operator) : operator := mkOp (o_local o) (o_remote o) s (o_auth o) (o_proof o) (o_seq o).
(** check_default_credentials, parse_pcap_klap.py:88-104 *)
Definition check_default (l r proof : bytes) : option bytes :=
  find (fun a => bytes_eqb proof (handshake1_seed_auth_hash sha256 V2 l r a))
    (map (fun kv => generate_auth_hash md5 sha1 sha256 V2 (get_default_credentials (snd kv))) default_credentials_b64).
(** update_encryption_session, parse_pcap_klap.py:106-141, with _generate_cipher, klaptransport.py:526-529 *)
Definition update_session (o : operator) : operator * res unit :=
  match o_local o, o_remote o with
  | Some l, Some r =>
      match o_proof o with
      | None => (o, Ok tt)
      | Some h =>
          let auth := if bytes_eqb (handshake1_seed_auth_hash sha256 V2 l r (o_auth o)) h then Some (o_auth o) else check_default l r h in
          match auth with
          | None | Some [] => (o, Err PyValueError)
          | Some a =>
              let s := new_session sha256 l r a in
              match pack_i32 (o_seq o) with
              | Err e => (with_session (Some (mkSess (s_key s) (s_iv s) (o_seq o) (s_sig s) None)) o, Err e)
              | Ok packed => (with_session (Some (mkSess (s_key s) (s_iv s) (o_seq o) (s_sig s) (Some (s_iv s ++ packed)))) o, Ok tt)
              end
          end
      end
  | _, _ => (with_session None o, Ok tt)
  end.
(** The setters seq, local_seed, remote_auth_hash and remote_seed, parse_pcap_klap.py:148-200 *)
Definition set_seq (n : Z) (o : operator) : operator * res unit :=
  update_session (mkOp (o_local o) (o_remote o) (o_session o) (o_auth o) (o_proof o) n).
Definition set_local (b : bytes) (o : operator) : operator * res unit :=
  if negb (Nat.eqb (List.length b) 16) then (o, Err PyValueError)
  else update_session (mkOp (Some b) None (o_session o) (o_auth o) None (o_seq o)).
Definition set_proof (b : bytes) (o : operator) : operator * res unit :=
  if negb (Nat.eqb (List.length b) 32) then (o, Err PyValueError)
  else update_session (mkOp (o_local o) (o_remote o) (o_session o) (o_auth o) (Some b) (o_seq o)).
Definition set_remote (b : bytes) (o : operator) : operator * res unit :=
  if negb (Nat.eqb (List.length b) 16) then (o, Err PyValueError)
  else update_session (mkOp (o_local o) (Some b) (o_session o) (o_auth o) (o_proof o) (o_seq o)).
(** Operator.decrypt and MyEncryptionSession.decrypt, parse_pcap_klap.py:203-207 and 58-69, before .decode *)
Definition op_decrypt (o : operator) (b : bytes) : res bytes :=
  match o_session o with None => Err PyValueError | Some s => klap_decrypt dec_block s b end.

(** A call that may raise *)
Definition after_call {A} (r : operator * res unit) (k : operator -> A) (fail : exn -> A) : A :=
  match r with (o, Ok _) => k o | (_, Err e) => fail e end.
(** The data of a packet; bytes.fromhex(None) raises TypeError *)
Definition data_of (p : packet) : res bytes := match p_data p with Some b => Ok b | None => Err PyTypeError end.
(** The loop of main, parse_pcap_klap.py:254-318, over the packets that are left; [wait]: the request whose
    response is looked for, 293-300.  What is printed, and how it ends: an error ends the thread. *)
Fixpoint decode (src dev : string) (wait : option packet) (o : operator) (ps : list packet) : list J * res unit :=
  match ps with
  | [] => ([], Ok tt)                                                        (* StopIteration *)
  | p :: ps =>
      match wait with
      | Some q =>
          match is_response p q with
          | Err e => ([], Err e)
          | Ok false => decode src dev wait o ps
          | Ok true =>
              match data_of p with
              | Err e => ([], Err e)
              | Ok b => after_call (set_remote (firstn 16 b) o) (fun o =>
                        after_call (set_proof (skipn 16 b) o) (fun o => decode src dev None o ps) (fun e => ([], Err e)))
                        (fun e => ([], Err e))
              end
          end
      | None =>
          if negb (String.eqb (p_src p) src) then decode src dev None o ps
          else if negb (p_http p) then decode src dev None o ps
          else match (match p_path p with Some u => Some u | None => p_uri p end) with
          | None => decode src dev None o ps
          | Some u =>
              match get_seq p with
              | Err e => ([], Err e)
              | Ok n => after_call (set_seq n o) (fun o =>
                  if String.eqb u "/app/request" then
                    if negb (String.eqb (p_dst p) dev) then decode src dev None o ps
                    else match data_of p with
                    | Err e => ([], Err e)
                    | Ok b =>
                        match op_decrypt o b with
                        | Ok text =>
                            match loads text with
                            | Some j => let (out, e) := decode src dev None o ps in (j :: out, e)
                            | None => decode src dev None o ps
                            end
                        | Err PyValueError => decode src dev None o ps
                        | Err e => ([], Err e)
                        end
                    end
                  else if String.eqb u "/app/handshake1" then
                    if negb (String.eqb (p_dst p) dev) then decode src dev None o ps
                    else match data_of p with
                    | Err e => ([], Err e)
                    | Ok b => after_call (set_local b o) (fun o => decode src dev (Some p) o ps) (fun e => ([], Err e))
                    end
                  else decode src dev None o ps)
                  (fun e => ([], Err e))
              end
          end
      end
  end.
(** main, parse_pcap_klap.py:221-328: what is printed, and what is written to the file *)
Definition decode_file (c : credentials) (src dev : string) (ps : list packet) : list J * res (list J) :=
  let (out, e) := decode src dev None (new_operator c) ps in (out, let! _ := e in Ok out).
End Klap.

(** * parse_pcap.py *)
(** A frame as dpkt gives it: whether it is IP, the protocol, the ports and the data *)
Record frame := mkFrame { f_ip : bool; f_proto : Z; f_sport : Z; f_dport : Z; f_data : bytes }.
Section Legacy.
(** bytes.decode (in XorEncryption.decrypt, xortransport.py:225-232) and json.loads; [None]: they raise *)
Variable text : bytes -> option string.
Variable loads : string -> option json.
(** read_payloads_from_file, parse_pcap.py:14-53, for one frame: ip == 17 compares a packet with a number *)
Definition payload (f : frame) : option json :=
  if negb (f_ip f) then None
  else if negb (f_proto f =? 6) then None
  else if negb (f_sport f =? 9999) && negb (f_dport f =? 9999) then None
  else match text (Xor_Model.decrypt (skipn 4 (f_data f))) with
       | None => None
       | Some "" => None
       | Some s => match loads s with Some j => if truthy j then Some j else None | None => None end
       end.
Definition payloads (fs : list frame) : list json := flat_map (fun f => match payload f with Some j => [j] | None => [] end) fs.

(** A counter: Counter of collections *)
Definition count (k : string) (c : dict Z) : dict Z := dset k (match dget k c with Some n => n + 1 | None => 1 end) c.
(** seen_items; the keys of errorcodes and errors, values of any type, are left out *)
Record stats := mkStats { n_modules : dict Z; n_commands : dict Z; n_full : dict Z; n_errors : Z }.
Definition no_stats : stats := mkStats [] [] [] 0.
(** What is printed: an error of a module, or a command with what was said: [None]: no code; otherwise
    whether the code is zero *)
Inductive line := LModule (cmds : json) | LCommand (context : json) (module cmd : string) (said : json) (code : option bool).
(** One command, parse_pcap.py:71-97; codes and messages that can not be keys are not modelled *)
Definition read_command (context : json) (module cmd : string) (response : json) (s : stats) : stats * list line * res unit :=
  let s := mkStats (n_modules s) (count cmd (n_commands s)) (count (module ++ "." ++ cmd) (n_full s)) (n_errors s) in
  match response with
  | JNull => (s, [], Ok tt)
  | _ =>
      match jcontains "err_code" response with
      | Err e => (s, [], Err e)
      | Ok false => (s, [LCommand context module cmd response None], Ok tt)
      | Ok true =>
          match jitem "err_code" response with
          | Err e => (s, [], Err e)
          | Ok c =>
              if (match c with JInt _ | JBool _ | JFloat _ => negb (truthy c) | _ => false end) then (s, [LCommand context module cmd response (Some true)], Ok tt)
              else match jitem "err_msg" response with
                   | Err e => (s, [], Err e)
                   | Ok _ => (mkStats (n_modules s) (n_commands s) (n_full s) (n_errors s + 1), [LCommand context module cmd response (Some false)], Ok tt)
                   end
          end
      end
  end.
Fixpoint read_commands (context : json) (module : string) (l : dict json) (s : stats) : stats * list line * res unit :=
  match l with
  | [] => (s, [], Ok tt)
  | (cmd, r) :: l =>
      match read_command context module cmd r s with
      | (s, out, Err e) => (s, out, Err e)
      | (s, out, Ok _) => let '(s, out', e) := read_commands context module l s in (s, out ++ out', e)
      end
  end.
(** One module, parse_pcap.py:64-70 *)
Definition read_module (context : json) (module : string) (cmds : json) (s : stats) : stats * list line * res unit :=
  let s := mkStats (count module (n_modules s)) (n_commands s) (n_full s) (n_errors s) in
  match jcontains "err_code" cmds with
  | Err e => (s, [], Err e)
  | Ok true => (s, [LModule cmds], Ok tt)
  | Ok false => match cmds with JObj l => read_commands context module l s | _ => (s, [], Err PyAttributeError) end
  end.
Fixpoint read_modules (context : json) (l : dict json) (s : stats) : stats * list line * res unit :=
  match l with
  | [] => (s, [], Ok tt)
  | (m, c) :: l =>
      match read_module context m c s with
      | (s, out, Err e) => (s, out, Err e)
      | (s, out, Ok _) => let '(s, out', e) := read_modules context l s in (s, out ++ out', e)
      end
  end.
(** parse_pcap, parse_pcap.py:56-99, for the payloads *)
Fixpoint read_payloads (l : list json) (s : stats) : stats * list line * res unit :=
  match l with
  | [] => (s, [], Ok tt)
  | j :: l =>
      match j with
      | JObj d =>
          let context := match dget "context" d with Some c => c | None => JStr "" end in
          match read_modules context (ddel "context" d) s with
          | (s, out, Err e) => (s, out, Err e)
          | (s, out, Ok _) => let '(s, out', e) := read_payloads l s in (s, out ++ out', e)
          end
      | JArr _ => (s, [], Err PyTypeError)                                   (* only objects pop a key with a default *)
      | _ => (s, [], Err PyAttributeError)
      end
  end.
Definition parse_pcap (fs : list frame) : stats * list line * res unit := read_payloads (payloads fs) no_stats.
End Legacy.
