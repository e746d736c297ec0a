(** Specification: what a legacy device object shows, compared with the device. *)
From Verif Require Import Base Py Iot_Model Iot_Spec IotUpd_Model.
Open Scope string_scope.
Open Scope list_scope.
Open Scope Z_scope.

(** What the object shows of command [c] of module [k] *)
Definition shown (s : sys) (k c : string) : option json := field k c (s_lu s).
(** The object shows what the device would answer now *)
Definition current (s : sys) (k c : string) : Prop := exists f, s_world s k = Some f /\ shown s k c = Some (f c).
(** Every update asks for it: the system information, or a command of a module that is
    in use and that the device knows *)
Definition asked (s : sys) (k c : string) : Prop :=
  (k = "system" /\ c = "get_sysinfo") \/ exists m, In m (s_mods s) /\ m_name m = k /\ In c (m_cmds m) /\ supported m (s_lu s) = true.
Definition known (s : sys) (k : string) : Prop := s_world s k <> None.
(** An ordinary set of modules: no command is called err_code, no command occurs twice *)
Definition ordinary (s : sys) : Prop := forall m, In m (s_mods s) -> ~ In "err_code" (m_cmds m) /\ NoDup (m_cmds m).
(** The module once answered with an error *)
Definition failed_once (s : sys) (k : string) : Prop := shown s k "err_code" <> None.
(** The device does not change *)
Definition no_change (e : event) : Prop := match e with EDevice _ => False | _ => True end.
(** The update returned in the course of the history *)
Definition returned (id : nat) (s s' : sys) : Prop := In id (s_done s') /\ ~ In id (s_done s).
(** One request carries the whole update *)
Definition one_request (s : sys) : Prop :=
  (forall m, In m (s_mods s) -> 0 <= m_size m) /\ 1024 + fold_right (fun m n => m_size m + n) 0 (s_mods s) <= s_limit s.
(** In the course of the history the requests of an update are [n] or one more *)
Fixpoint sized (n : nat) (s : sys) (es : list event) : Prop :=
  match es with
  | [] => True
  | e :: es =>
      match e with EBegin _ => forall rs, plan s = Ok rs -> length rs = n \/ length rs = S n | _ => True end /\ sized n (step s e) es
  end.
(** The device knows the module throughout *)
Definition knows (k : string) (e : event) : Prop := match e with EDevice w => w k <> None | _ => True end.
(** The queries that the updates under way still have to make, those that have planned theirs *)
Definition left_of (p : phase) : nat := match p with First => 1%nat | Asking todo _ => Nat.max 1 (List.length todo) end.
Definition queries_left (s : sys) : nat := fold_right (fun u n => (left_of (snd u) + n)%nat) 0%nat (s_ups s).
Definition all_planned (s : sys) : Prop := forall i p, In (i, p) (s_ups s) -> p <> First.
(** Nothing happens but answers, changes of the device and cancellations of other updates *)
Definition undisturbed (id : nat) (e : event) : Prop :=
  match e with EBegin _ => False | EAnswer ok => ok = true | ECancel i => i <> id | EDevice _ => True end.
