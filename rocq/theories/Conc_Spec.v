(** What concurrent users of one legacy device may rely on. *)
From Verif Require Import Base Xor_Model Conc_Model.

(** The states that some schedule of events leads to. *)
Definition reachable {J} (loads : bytes -> option J) (s : state J) : Prop :=
  exists es, s = run J loads init es.

(** A call that has got past the lock and has not ended. *)
Definition inside {J} (s : state J) (t : tid) : Prop :=
  exists k, tasks s t = Some k /\
    at_ k <> Waiting /\ forall r, at_ k <> Finished r.

(** Call [t] has ended with [r]. *)
Definition ended {J} (s : state J) (t : tid) (r : res J) : Prop :=
  exists k, tasks s t = Some k /\ at_ k = Finished r.

(** Call [t] was made with request [req] and [n] retries. *)
Definition called {J} (s : state J) (t : tid) (req : bytes) (n : nat) : Prop :=
  exists k, tasks s t = Some k /\ request k = req /\ retries k = n.

(** Each caller's entries form one uninterrupted stretch. *)
Definition uninterrupted (l : list tid) : Prop :=
  forall before between after t, l = before ++ t :: between ++ t :: after ->
    forall u, In u between -> u = t.

(** Nothing but time passing for [t]. *)
Definition only_time (t : tid) (e : event) : Prop :=
  e = EFault t FTimeout \/ e = EClosed t \/ e = ESlept t.

(** Somebody asks for a query. *)
Definition is_call (e : event) : Prop := exists t req n, e = EQuery t req n.
