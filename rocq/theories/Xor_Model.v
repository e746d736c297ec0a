(** Legacy (port 9999) codec and TCP transport.
    Models kasa/transports/xortransport.py. *)
From Verif Require Import Base.

Definition byte := ascii.
Definition bytes := list ascii.

(** The integer value of a byte. *)
Definition bval (b : byte) : N := N_of_ascii b.

(** [key ^ byte] on values below 256 (xortransport.py:202,221), bit by bit. *)
Definition bxor (a b : byte) : byte :=
  match a, b with
  | Ascii a0 a1 a2 a3 a4 a5 a6 a7, Ascii b0 b1 b2 b3 b4 b5 b6 b7 =>
    Ascii (xorb a0 b0) (xorb a1 b1) (xorb a2 b2) (xorb a3 b3)
          (xorb a4 b4) (xorb a5 b5) (xorb a6 b6) (xorb a7 b7)
  end.

(** XorEncryption.INITIALIZATION_VECTOR, xortransport.py:196 *)
Definition IV : byte := ascii_of_N 171.

(** XorEncryption._xor_payload, xortransport.py:198-203 *)
Fixpoint xor_payload (key : byte) (unencrypted : bytes) : bytes :=
  match unencrypted with
  | [] => []
  | b :: rest => let key' := bxor key b in key' :: xor_payload key' rest
  end.

(** XorEncryption._xor_encrypted_payload, xortransport.py:217-223 *)
Fixpoint xor_encrypted_payload (key : byte) (ciphertext : bytes) : bytes :=
  match ciphertext with
  | [] => []
  | c :: rest => bxor key c :: xor_encrypted_payload c rest
  end.

(** struct.Struct(">I").pack, xortransport.py:33: big-endian unsigned 32 bit;
    a value that does not fit raises struct.error. *)
Definition pack_u32 (n : N) : res bytes :=
  if (n <? 2 ^ 32)%N then
    Ok [ascii_of_N (n / 16777216 mod 256); ascii_of_N (n / 65536 mod 256);
        ascii_of_N (n / 256 mod 256); ascii_of_N (n mod 256)]
  else Err PyStructError.

(** struct.Struct(">I").unpack on exactly four bytes, xortransport.py:85 *)
Definition unpack_u32 (b : bytes) : res N :=
  match b with
  | [b3; b2; b1; b0] =>
      Ok (bval b3 * 16777216 + bval b2 * 65536 + bval b1 * 256 + bval b0)%N
  | _ => Err PyStructError
  end.

(** XorEncryption.encrypt, xortransport.py:205-215.
    The argument is the request after [str.encode()]. *)
Definition encrypt (plainbytes : bytes) : res bytes :=
  let! prefix := pack_u32 (N.of_nat (length plainbytes)) in
  Ok (prefix ++ xor_payload IV plainbytes).

(** XorEncryption.decrypt, xortransport.py:225-232, before [bytes.decode()]. *)
Definition decrypt (ciphertext : bytes) : bytes := xor_encrypted_payload IV ciphertext.

(** asyncio.StreamReader.readexactly(n) on the bytes a connection will deliver:
    [None] when they never all arrive (the await does not complete). *)
Definition readexactly (n : nat) (stream : bytes) : option (bytes * bytes) :=
  if Nat.leb n (length stream) then Some (firstn n stream, skipn n stream) else None.

(** The reading half of XorTransport._execute_send, xortransport.py:84-88:
    four bytes, then as many bytes as they announce, then decrypt.
    The announced length is compared as N so that it never becomes a huge nat. *)
Definition read_frame (stream : bytes) : option (bytes * bytes) :=
  match readexactly 4 stream with
  | None => None
  | Some (hdr, rest) =>
      match unpack_u32 hdr with
      | Err _ => None
      | Ok n =>
          if (n <=? N.of_nat (length rest))%N then
            match readexactly (N.to_nat n) rest with
            | Some (buf, rest') => Some (decrypt buf, rest')
            | None => None
            end
          else None
      end
  end.

(** Reading [n] frames one after the other from one connection. *)
Fixpoint read_frames (n : nat) (stream : bytes) : option (list bytes * bytes) :=
  match n with
  | O => Some ([], stream)
  | S n' =>
      match read_frame stream with
      | None => None
      | Some (m, rest) =>
          match read_frames n' rest with
          | None => None
          | Some (ms, rest') => Some (m :: ms, rest')
          end
      end
  end.

(** * The transport *)

(** What can go wrong while connecting, writing or reading. *)
Inductive fault : Type :=
| FTimeout        (* asyncio timeout / builtin TimeoutError *)
| FRefused        (* ConnectionRefusedError *)
| FNoRoute        (* OSError with errno in _NO_RETRY_ERRORS, xortransport.py:32 *)
| FOSError        (* any other OSError *)
| FException      (* any other Exception: IncompleteReadError, bad JSON, ... *)
| FCancel.        (* BaseException: task cancelled *)

(** [writer] is [Some u] while connected, [u] being the bytes which the device
    has sent or will still send on that connection and which nobody has read.
    [opened]/[closed] count connections, to state that none is leaked. *)
Record transport := mkT { writer : option bytes; opened : nat; closed : nat }.

(** XorTransport.__init__, xortransport.py:42-47 *)
Definition init : transport := mkT None 0 0.

(** close_without_wait, xortransport.py:103-108 (also close/reset, 95-101,110-115;
    waiting for the socket to finish closing is not modelled). *)
Definition close_without_wait (t : transport) : transport :=
  match writer t with
  | Some _ => mkT None (opened t) (S (closed t))
  | None => mkT None (opened t) (closed t)
  end.
Definition reset (t : transport) : transport := close_without_wait t.

(** How a connection attempt ends; [established] says whether the connection
    had been opened when the failure happened (setsockopt failing). *)
Inductive connect_fate : Type :=
| COk
| CFail (f : fault) (established : bool).

(** _connect, xortransport.py:59-73 *)
Definition connect (t : transport) (c : connect_fate) : transport * option fault :=
  match writer t with
  | Some _ => (t, None)
  | None =>
      match c with
      | COk => (mkT (Some []) (S (opened t)) (closed t), None)
      | CFail f true => (mkT (Some []) (S (opened t)) (closed t), Some f)
      | CFail f false => (mkT None (opened t) (closed t), Some f)
      end
  end.

Section WithJson.
(** json_loads (kasa/json.py) applied to the decoded text: an oracle;
    [None] when it raises. *)
Variable J : Type.
Variable json_loads : bytes -> option J.

(** How the exchange goes: everything arrives, or fault [f] strikes after
    [got] bytes were read, the device having answered or not. *)
Inductive exec_fate : Type :=
| XOk
| XFail (f : fault) (got : nat) (answered : bool).

(** The bytes a device puts on the connection as its answer [rep]. *)
Definition device_frame (rep : bytes) : bytes :=
  match encrypt rep with Ok f => f | Err _ => [] end.

(** _execute_send, xortransport.py:75-93, on an open connection with unread
    bytes [u]; [rep] is the device's answer to this very request. Returns the
    bytes left unread and the outcome. *)
Definition execute_send (u req rep : bytes) (x : exec_fate) : bytes * (J + fault) :=
  match encrypt req with
  | Err _ => (u, inr FException)
  | Ok _ =>
      match x with
      | XFail f got answered =>
          (skipn got (u ++ if answered then device_frame rep else []), inr f)
      | XOk =>
          let stream := u ++ device_frame rep in
          match read_frame stream with
          | None => (stream, inr FTimeout)
          | Some (response, rest) =>
              match json_loads response with
              | Some j => (rest, inl j)
              | None => (rest, inr FException)
              end
          end
      end
  end.

(** Exceptions raised by the connect phase, xortransport.py:130-160 *)
Definition connect_exn (f : fault) : exn :=
  match f with
  | FTimeout => KTimeout
  | FRefused => KKasa
  | FNoRoute => KKasa
  | FOSError => KRetry None
  | FException => KRetry None
  | FCancel => Cancelled
  end.

(** Exceptions raised by the exchange phase, xortransport.py:167-182 *)
Definition exec_exn (f : fault) : exn :=
  match f with
  | FTimeout => KTimeout
  | FCancel => Cancelled
  | FRefused | FNoRoute | FOSError | FException => KRetry None
  end.

(** send, xortransport.py:117-182 *)
Definition send (t : transport) (req rep : bytes) (c : connect_fate) (x : exec_fate)
  : transport * res J :=
  match connect t c with
  | (t1, Some f) =>
      match f with
      | FCancel => (close_without_wait t1, Err (connect_exn f))
      | _ => (reset t1, Err (connect_exn f))
      end
  | (t1, None) =>
      match writer t1 with
      | None => (reset t1, Err (KRetry None))  (* assert inside the try, 163-164 *)
      | Some u =>
          match execute_send u req rep x with
          | (u', inl j) => (mkT (Some u') (opened t1) (closed t1), Ok j)
          | (u', inr f) =>
              let t2 := mkT (Some u') (opened t1) (closed t1) in
              match f with
              | FCancel => (close_without_wait t2, Err (exec_exn f))
              | _ => (reset t2, Err (exec_exn f))
              end
          end
      end
  end.

(** One event in the life of a transport. *)
Inductive event : Type :=
| ESend (req rep : bytes) (c : connect_fate) (x : exec_fate)
| EReset
| EClose.

Definition step (t : transport) (e : event) : transport * option (res J) :=
  match e with
  | ESend req rep c x => let (t', r) := send t req rep c x in (t', Some r)
  | EReset => (reset t, None)
  | EClose => (close_without_wait t, None)
  end.

Fixpoint run (t : transport) (es : list event) : transport * list (option (res J)) :=
  match es with
  | [] => (t, [])
  | e :: es' =>
      let (t1, o) := step t e in
      let (t2, os) := run t1 es' in (t2, o :: os)
  end.
End WithJson.
