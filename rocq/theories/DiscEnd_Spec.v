(** Specification vocabulary for C134. *)
From Verif Require Import Base DiscEnd_Model.
Open Scope list_scope.

(** A discovery that has seen these events. *)
Definition after (k : kind) (started : bool) (es : list event) : state := run k (init started) es.
Definition is_over (s : state) : Prop := exists r, at_ s = Over r.
Definition is_closing (s : state) : Prop := exists i n e, at_ s = AtClose i n e.
Definition sending (s : state) : Prop := forall r, task s <> TEnded r.

(** Where an exception may come from: the sending task (unless it was cancelled), a callback, the closing of a device, a
    cancellation or the loss of the socket, no start within the time given, a device without a protocol,
    a device that is found while others are being closed. *)
Inductive cause (es : list event) : exn -> Prop :=
| by_sender e : e <> Cancelled -> In (ESenderEnds (Err e)) es -> cause es e
| by_callback i e : In (ECallbackEnds i (Err e)) es -> cause es e
| by_closing e : In (EClosed (Err e)) es -> cause es e
| by_cancel : In ECancel es -> cause es Cancelled
| by_loss : In ELost es -> cause es Cancelled
| by_start : In EStartTimeout es -> cause es PyTimeout
| by_bare t : In (EReply t (VDevice false)) es -> cause es PyAttributeError
| by_late t p : In (EReply t (VDevice p)) es -> cause es PyRuntime.

(** The exceptions after which discover() closes what it has found. *)
Definition tidied (e : exn) : Prop := e = Cancelled \/ is_kasa e = true.
(** Nobody cancels the call while it closes devices, and closing succeeds. *)
Definition undisturbed (k : kind) (started : bool) (es : list event) : Prop :=
  (forall e, ~ In (EClosed (Err e)) es) /\
  (forall es1 es2, es = es1 ++ ECancel :: es2 -> ~ is_closing (after k started es1)).
