(** Specification: the host and the port a request goes to. *)
From Verif Require Import Base Where_Model.
From Coq Require Import Decimal DecimalString.
Open Scope string_scope.
Open Scope list_scope.
Open Scope Z_scope.

(** Reading the part of a URL that names host and port: the host ends at the first colon,
    or is in brackets if it has colons itself; without a port it is the standard port *)
Fixpoint upto (e : ascii) (s : string) : string * option string :=
  match s with
  | EmptyString => ("", None)
  | String c r => if Ascii.eqb c e then ("", Some r) else let (h, p) := upto e r in (String c h, p)
  end.
Definition read_auth (s : string) : string * option string :=
  match s with
  | String "["%char r => match upto "]" r with (h, Some r) => (h, snd (upto ":" r)) | (h, None) => (h, None) end
  | _ => upto ":" s
  end.
Definition standard (scheme : string) : Z := if String.eqb scheme "https" then 443 else 80.
(** A request to this place reaches host [h] at port [p] *)
Definition reaches (x : place) (h : string) (p : Z) : Prop :=
  match x with
  | PTcp h' p' => h' = h /\ p' = p
  | PUrl u =>
      match read_auth (u_auth u) with
      | (h', None) => h' = h /\ standard (u_scheme u) = p
      | (h', Some d) => h' = h /\ exists i, NilZero.int_of_string d = Some i /\ Z.of_int i = p
      end
  end.
Definition has_colon (h : string) : Prop := In ":"%char (list_ascii_of_string h).
Definition bracketed (h : string) : Prop := exists r, h = String "[" r.
(** A name or an IPv4 address *)
Definition no_colon (h : string) : Prop := ~ has_colon h /\ ~ bracketed h.
(** The port a user asked for: the override, else the port that discovery told (not for
    the plain TCP protocol), else the usual port of the protocol *)
Definition usual (k : tkind) (https : bool) : Z :=
  match k, https with TAes, _ => 80 | TKlap, false => 80 | TKlap, true => 4433 | TSslAes, _ => 443 | TSsl, _ => 4433 | TLinkie, _ => 10443 | TXor, _ => 9999 end.
Inductive wanted_port (k : tkind) (c : cfg) : Z -> Prop :=
  | WOverride p : c_override c = Some p -> p <> 0 -> wanted_port k c p
  | WHttp p : k <> TXor -> (c_override c = None \/ c_override c = Some 0) -> c_http c = Some p -> p <> 0 -> wanted_port k c p
  | WUsual : (c_override c = None \/ c_override c = Some 0) -> (k = TXor \/ c_http c = None \/ c_http c = Some 0) -> wanted_port k c (usual k (c_https c)).
Definition no_set_host (l : list op) : Prop := forall h, ~ In (OSetHost h) l.
(** The host that was set last *)
Fixpoint last_host (h : string) (l : list op) : string :=
  match l with [] => h | OSetHost h' :: l => last_host h' l | _ :: l => last_host h l end.
(** https or http *)
Definition encrypted (x : place) : Prop := match x with PUrl u => u_scheme u = "https" | PTcp _ _ => False end.
