(** Specification of the retry behaviour (C05, C06), by the sequence of
    outcomes the attempts would have. *)
From Verif Require Import Base Retry_Model.

(** Errors worth another attempt: refused connection, retryable error, timeout. *)
Definition worth_retrying (e : exn) : bool :=
  match e with KConn | KRetry _ | KTimeout => true | _ => false end.

(** What happens between a failed attempt and the next one. *)
Definition between_iot (e : exn) : list act :=
  match e with KConn => [] | KTimeout => [Reset; Sleep] | _ => [Reset] end.
Definition between_smart (e : exn) : list act :=
  match e with KConn => [] | _ => [Reset; Sleep] end.

(** What happens after the last attempt. *)
Definition finally {A} (r : res A) : list act :=
  match r with
  | Ok _ => []
  | Err KConn => []
  | Err e => if is_kasa e then [Reset] else []
  end.

Section Spec.
Context {S A : Type}.
Variable exec : S -> S * res A.
Variable treset : S -> S.
Variable s0 : S.

Definition after (r : res A) (s : S) : S :=
  match r with
  | Ok _ => s
  | Err KConn => s
  | Err e => if is_kasa e then treset s else s
  end.

(** The state in which attempt [i] would start, and its outcome. *)
Fixpoint state_at (i : nat) : S :=
  match i with
  | O => s0
  | Datatypes.S i' => after (snd (exec (state_at i'))) (fst (exec (state_at i')))
  end.
Definition outcome (i : nat) : res A := snd (exec (state_at i)).

(** The error of attempt [i] ([Cancelled] when it did not fail; only used below
    the first success). *)
Definition error_at (i : nat) : exn := match outcome i with Err e => e | Ok _ => Cancelled end.

(** [good_run between max k trace result final]: exactly [k+1] attempts are
    made, [k <= max]; all but the last failed with an error worth retrying; the
    last one gives the result and was not worth retrying unless it was the
    last one allowed. *)
Definition good_run (between : exn -> list act) (max k : nat)
    (trace : list act) (result : res A) (final : S) : Prop :=
  k <= max /\
  (forall i, i < k -> exists e, outcome i = Err e /\ worth_retrying e = true) /\
  result = outcome k /\
  (k < max -> forall e, outcome k = Err e -> worth_retrying e = false) /\
  trace = flat_map (fun i => Exec :: between (error_at i)) (seq 0 k) ++ Exec :: finally (outcome k) /\
  final = after (outcome k) (fst (exec (state_at k))).
End Spec.
