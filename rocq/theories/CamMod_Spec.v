(** Specification vocabulary for camera modules (C82-C86). *)
From Coq Require Import DecimalString Decimal.
From Verif Require Import Base Py Smod_Model Gadget_Model.
Open Scope string_scope.
Open Scope list_scope.
Open Scope Z_scope.

(** ** A camera that keeps what it is sent *)
(** Its settings: for each module and section, the fields. *)
Definition settings := string -> string -> option (dict json).
(** The camera's methods: the one to read, the one to write, the module and the section. *)
Definition methods : list (string * string * string * string) :=
  [("getDetectionConfig", "setDetectionConfig", "motion_detection", "motion_det");
   ("getPersonDetectionConfig", "setPersonDetectionConfig", "people_detection", "detection");
   ("getPetDetectionConfig", "setPetDetectionConfig", "pet_detection", "detection");
   ("getTamperDetectionConfig", "setTamperDetectionConfig", "tamper_detection", "tamper_det");
   ("getBCDConfig", "setBCDConfig", "sound_detection", "bcd");
   ("getLedStatus", "setLedStatus", "led", "config");
   ("getLensMaskConfig", "setLensMaskConfig", "lens_mask", "lens_mask_info")].
(** [c] is a write the camera knows, and turns settings [a] into [b]. *)
Definition stores (a : settings) (c : cmd) (b : settings) : Prop :=
  exists g m s fields old new,
    In (g, k_method c, m, s) methods /\ k_params c = [(m, JObj [(s, JObj fields)])] /\
    a m s = Some old /\ b m s = Some new /\
    (forall k, dget k new = match dget k fields with Some v => Some v | None => dget k old end) /\
    (forall m' s', (m', s') <> (m, s) -> b m' s' = a m' s').
(** An update read the settings [a]; the camera gives a section within its module or without. *)
Definition shows (own : dict Smod_Model.reply) (a : settings) : Prop :=
  forall g w m s fields, In (g, w, m, s) methods -> a m s = Some fields ->
  exists d, dget g own = Some (RVal (JObj d)) /\
    ((exists e, dget m d = Some (JObj e) /\ dget s e = Some (JObj fields)) \/ (dget m d = None /\ dget s d = Some (JObj fields))).

(** ** URLs *)
(** Undoing the escapes of a URL. *)
Definition hex_value (c : ascii) : option N :=
  let n := N_of_ascii c in
  if ((48 <=? n) && (n <=? 57))%N then Some (n - 48)%N
  else if ((65 <=? n) && (n <=? 70))%N then Some (n - 55)%N
  else if ((97 <=? n) && (n <=? 102))%N then Some (n - 87)%N else None.
Fixpoint unescape (s : string) : option string :=
  match s with
  | EmptyString => Some EmptyString
  | String c s' =>
      if Ascii.eqb c "+" then option_map (String " ") (unescape s')
      else if Ascii.eqb c "%" then
        match s' with
        | String h (String l s'') =>
            match hex_value h, hex_value l with
            | Some h, Some l => option_map (String (ascii_of_N (16 * h + l))) (unescape s'')
            | _, _ => None
            end
        | _ => None
        end
      else option_map (String c) (unescape s')
  end.
(** Text up to the first [c], and what follows it. *)
Fixpoint cut (c : ascii) (s : string) : option (string * string) :=
  match s with
  | EmptyString => None
  | String d s' => if Ascii.eqb d c then Some (EmptyString, s')
                   else match cut c s' with Some (a, b) => Some (String d a, b) | None => None end
  end.
(** The user name, password and the rest of an rtsp URL, as a player takes it apart. *)
Definition parts (url : string) : option (string * string * string) :=
  if String.prefix "rtsp://" url then
    match cut "@" (sdrop 7 url) with
    | Some (a, rest) =>
        match cut ":" a with
        | Some (u, p) => match unescape u, unescape p with Some u, Some p => Some (u, p, rest) | _, _ => None end
        | None => None
        end
    | None => None
    end
  else None.

(** ** Siren *)
(** A number in decimal. *)
Definition decimal (z : Z) : string := NilZero.string_of_int (Z.to_int z).
(** Acceptable overrides, and the fields they are sent as. *)
Definition siren_ok (sounds : list string) (d v : option Z) (s : option string) : Prop :=
  match d with Some d => 0 <= d <= 6000 | None => True end /\
  match v with Some v => 0 <= v <= 10 | None => True end /\
  match s with Some s => In s sounds | None => True end.
Definition siren_fields (d v : option Z) (s : option string) : list (string * json) :=
  match s with Some s => [("siren_type", JStr s)] | None => [] end ++
  match d with Some d => [("duration", JInt d)] | None => [] end ++
  match v with Some v => [("volume", JStr (decimal v))] | None => [] end.

(** ** Stream credentials *)
(** The credentials used: those given, else those of the configuration, else those stored in the
    hash of the configuration. *)
Definition credentials_of (decode : string -> option json) (config : option (string * string) * option string)
    (given : option (string * string)) (u p : string) : Prop :=
  given = Some (u, p) \/
  (given = None /\ fst config = Some (u, p)) \/
  (given = None /\ fst config = None /\ exists h d, snd config = Some h /\ h <> "" /\ decode h = Some (JObj d) /\
     dget "un" d = Some (JStr u) /\ dget "pwd" d = Some (JStr p)).
