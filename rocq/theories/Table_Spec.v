(** Specification: what the discover commands are to print. *)
From Verif Require Import Base Py Redact_Model Table_Model.
Open Scope string_scope.
Open Scope list_scope.

(** The answers that came in, each address once *)
Fixpoint heard_from (seen : list string) (es : list event) : list answer :=
  match es with
  | [] => []
  | Answer a :: es =>
      if smem (ip_of a) seen then heard_from seen es else a :: heard_from (seen ++ [ip_of a]) es
  | _ :: es => heard_from seen es
  end.
Definition heard (es : list event) : list answer := heard_from [] es.

Section Told.
Context (model : string -> res string) (conn : string -> string * string * bool * option Z)
        (update : string -> res string) (state : string -> list string * option exn).
(** The line of the list about a device: its columns, and its name, or why there is none *)
Definition list_line (ip : string) : list line :=
  match model ip with
  | Err _ => []
  | Ok m =>
      let '(family, encryption, https, login) := conn ip in
      match update ip with
      | Ok alias => [Row ip m family encryption https login (Named alias)]
      | Err (KAuth _) => [Row ip m family encryption https login AuthFailed]
      | Err KTimeout | Err PyTimeout => [Row ip m family encryption https login TimedOut]
      | Err Cancelled => []
      | Err e => [Row ip m family encryption https login (Failed e)]
      end
  end.
(** The block about a device: what the state command prints and an empty line, or that the
    login was refused *)
Definition block (ip : string) : list line :=
  match update ip with
  | Ok _ => map (Part ip) (fst (state ip)) ++ match snd (state ip) with None => [Part ip ""] | Some _ => [] end
  | Err (KAuth _) => [Refused ip; Part ip ""]
  | Err _ => []
  end.
Definition told (c : cmd) (a : answer) : list line :=
  match c, a with
  | Listing, Device ip => list_line ip
  | Listing, Unsupported _ (Some h) => if String.eqb h "" then [] else [NotSupported h]
  | Listing, Unsupported _ None => []
  | Detail, Device ip => block ip
  | Detail, Unsupported ip _ => [UnsupportedBlock ip]
  end.
(** Why a command may fail on account of a device *)
Definition fault (c : cmd) (ip : string) (e : exn) : Prop :=
  match c with
  | Listing => model ip = Err e \/ e = Cancelled /\ update ip = Err Cancelled
  | Detail => update ip = Err e /\ (forall x, e <> KAuth x) \/ (exists n, update ip = Ok n) /\ snd (state ip) = Some e
  end.
End Told.
(** Devices and those that refused the login, of a list of answers *)
Definition devices (l : list answer) : nat := List.length (filter (fun a => match a with Device _ => true | _ => false end) l).
Definition refusals (update : string -> res string) (l : list answer) : nat :=
  List.length (filter (fun a => match a with Device ip => match update ip with Err (KAuth _) => true | _ => false end | _ => false end) l).
Definition prefix_of {A} (p l : list A) : Prop := exists q, l = p ++ q.
