(** Whole queries over the three other transports (C114): vacuums, legacy devices on TCP, legacy
    cameras. *)
From Verif Require Import Base Py Crypto_Model Stack_Spec.
From Verif Require Ssl_Model SslPeer_Spec Xor_Model XorPeer_Spec Linkie_Model LinkiePeer_Spec.

Section Ssl.
Import Ssl_Model SslPeer_Spec.
Definition ssl_client (hw : option (string -> bool) * choice * world) (m : bytes) (t : ssl) : ssl * res json :=
  send (snd hw) (string_of_list_ascii m) (cleared t).
Definition ssl_happenings {S} (es : list (deed S (option (string -> bool) * choice * world))) : list (happening S) :=
  flat_map (fun e => match e with DSend f (k, h, w) m => HDevice f :: match k with Some keep => [HForget keep] | None => [] end ++ [HSend h w m] | DReset => [HReset] end) es.
End Ssl.
Section Xor.
Import Xor_Model XorPeer_Spec.
Variable json_loads : bytes -> option json.
Definition xor_client (w : connect_fate * exec_fate * bool * bytes) (m : bytes) (t : transport) : transport * res json :=
  let '(c, x, _, answer) := w in send json json_loads t m answer c x.
Definition xor_happenings {S} (es : list (deed S (connect_fate * exec_fate * bool * bytes))) : list (happening S) :=
  flat_map (fun e => match e with DSend f (c, x, a, answer) m => [HDevice f; HSend c x a answer m] | DReset => [HReset] end) es.
End Xor.
Section Linkie.
Import Linkie_Model LinkiePeer_Spec.
Variable b64d : bytes -> res bytes.
Variable json_loads : bytes -> option json.
(** The client keeps nothing. *)
Definition linkie_client (w : fate * res (Z * bytes)) (m : bytes) (t : unit) : unit * res json :=
  (tt, snd (send b64d json json_loads (snd w) m [])).
Definition linkie_reset (t : unit) : unit := tt.
Definition linkie_happenings {S} (es : list (deed S (fate * res (Z * bytes)))) : list (happening S) :=
  flat_map (fun e => match e with DSend f (h, r) m => [HDevice f; HSend h r m] | DReset => [HReset] end) es.
End Linkie.
