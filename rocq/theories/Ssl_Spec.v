(** What an observer of a vacuum's transport knows (C98). *)
From Verif Require Import Base Codes_Model Ssl_Model.
Open Scope string_scope.
Open Scope list_scope.
Open Scope Z_scope.

(** The body [j] reports the error code [c]. *)
Definition reports (j : json) (c : Z) : Prop := exists d, j = JObj d /\ dget "error_code" d = Some (JInt c).
(** The codes that refuse the session or the login *)
Definition refusal (c : Z) : Prop := In c [-1501; 1111; -1005; 1100; 1003; -40412].
(** The codes after which trying again may help *)
Definition transient (c : Z) : Prop := In c [1002; 1112; -1001; 9999; -40401; -40413].

(** How a reply to a login or request reads: accepted, refused with a code, or otherwise *)
Definition body (r : reply) : option (dict json) :=
  match r with Ok (status, JObj d) => if status =? 200 then Some d else None | _ => None end.
Definition code (d : dict json) : option Z :=
  match dget "error_code" d with Some (JInt c) => Some c | Some (JBool false) => Some 0 | _ => None end.
Definition refused (r : reply) : option Z :=
  match body r with
  | Some d => match code d with
              | Some c => if in_dec Z.eq_dec c [-1501; 1111; -1005; 1100; 1003; -40412] then Some c else None
              | None => None
              end
  | None => None
  end.
Definition token_in (r : reply) : option json :=
  match body r with
  | Some d =>
      match code d, dget "result" d with
      | Some c, Some (JObj res) => if c =? 0 then dget "token" res else None
      | _, _ => None
      end
  | None => None
  end.

(** A session known to the observer: its token and when it is taken to expire, a day less twenty
    minutes after the login *)
Definition session : Type := option (json * Z).
Definition after_login (k : session) (r : reply) (at_ : Z) : session :=
  match token_in r with
  | Some tok => Some (tok, at_ + 85200)
  | None => match refused r with Some _ => None | None => k end
  end.
Definition after_post (w : world) (k : session) (p : post) : session :=
  match p with
  | PLogin false _ => after_login k (w_login w) (w_login_at w)
  | PLogin true _ => after_login k (w_login2 w) (w_login2_at w)
  | PRequest _ _ => match refused (w_req w) with Some _ => None | None => k end
  end.
Definition after_posts (w : world) (k : session) (ps : list post) : session := fold_left (after_post w) ps k.
Fixpoint known_after (k : session) (h : list (event * list post)) : session :=
  match h with
  | [] => k
  | (ESend w _, ps) :: h' => known_after (after_posts w k ps) h'
  | (EReset, _) :: h' => known_after None h'
  end.

(** What a send of [m] may post when the observer knows [k]: the request under a live session, or
    after logging in; a login when there is no live session; a login with the default parameters
    when the user's were refused as wrong. *)
Definition live (k : session) (now : Z) : Prop := exists tok e, k = Some (tok, e) /\ now < e.
Definition lawful (w : world) (m : string) (k : session) (ps : list post) : Prop :=
  forall pre p rest, ps = pre ++ p :: rest ->
  match p with
  | PRequest tok req =>
      req = m /\ rest = []
      /\ (pre = [] /\ live k (w_now w) /\ tok = option_map fst k
          \/ (exists a, pre = [PLogin false a] /\ token_in (w_login w) <> None /\ tok = token_in (w_login w))
          \/ (exists a b, pre = [PLogin false a; PLogin true b]
                /\ token_in (w_login2 w) <> None /\ tok = token_in (w_login2 w)))
  | PLogin false tok => pre = [] /\ ~ live k (w_now w) /\ tok = option_map fst k
  | PLogin true tok => tok = None /\ exists a, pre = [PLogin false a] /\ refused (w_login w) = Some (-1501)
  end.
