(** Specification: reading the text of a feature. *)
From Verif Require Import Base Py Feature_Model Show_Model.
Open Scope string_scope.
Open Scope list_scope.

Definition star : ascii := "*".
Definition no_star (s : string) : Prop := ~ In star (list_ascii_of_string s).
(** What stands between the first star and the next one *)
Fixpoint up_to_star (s : string) : option string :=
  match s with
  | EmptyString => None
  | String c s => if Ascii.eqb c star then Some "" else option_map (String c) (up_to_star s)
  end.
Fixpoint between_stars (s : string) : option string :=
  match s with
  | EmptyString => None
  | String c s => if Ascii.eqb c star then up_to_star s else between_stars s
  end.
(** A listing by titles: the ids under each *)
Fixpoint under (cur : option category) (ls : list line) : list (category * string) :=
  match ls with
  | [] => []
  | LTitle c :: ls => under (Some c) ls
  | LBlank :: ls => under cur ls
  | LFeature i _ :: ls => match cur with Some c => (c, i) :: under cur ls | None => under cur ls end
  | LFailed i _ :: ls => match cur with Some c => (c, i) :: under cur ls | None => under cur ls end
  end.
