(** Proofs about where requests go. *)
From Verif Require Import Base Where_Model Where_Spec.
From Coq Require Import Decimal DecimalString DecimalZ Lia Bool.
Open Scope string_scope.
Open Scope list_scope.
Open Scope Z_scope.

Lemma upto_at h d : ~ has_colon h -> upto ":" (h ++ ":" ++ d) = (h, Some d).
Proof.
  change (":" ++ d)%string with (String ":" d). induction h as [|c h IH]; intros N; [reflexivity|]. cbn [append upto].
  destruct (Ascii.eqb_spec c ":"); [exfalso; apply N; left; exact e|]. rewrite IH; [reflexivity|]. intros H. apply N. now right.
Qed.
Lemma upto_plain h : ~ has_colon h -> upto ":" h = (h, None).
Proof.
  induction h as [|c h IH]; intros N; [reflexivity|]. cbn [upto].
  destruct (Ascii.eqb_spec c ":"); [exfalso; apply N; left; exact e|]. rewrite IH; [reflexivity|]. intros H. apply N. now right.
Qed.
Lemma upto_no_colon s : ~ has_colon (fst (upto ":" s)).
Proof.
  induction s as [|c s IH]; cbn [upto]; [intros []|]. destruct (Ascii.eqb_spec c ":"); [intros []|].
  destruct (upto ":" s) as [h p]. cbn [fst] in *. intros [E|H]; [now apply n|]. now apply IH.
Qed.
Lemma read_unbracketed s : ~ bracketed s -> read_auth s = upto ":" s.
Proof.
  intros N. unfold read_auth. destruct s as [|[[] [] [] [] [] [] [] []] r]; try reflexivity. exfalso. apply N. now exists r.
Qed.
Lemma not_bracketed h d : ~ bracketed h -> h <> "" \/ ~ bracketed d -> ~ bracketed (h ++ d).
Proof.
  intros N [H | H]; (destruct h as [|c h]; [try congruence; try exact H|]); intros [r E]; apply N; injection E as -> _; now exists h.
Qed.
Lemma read_at h d : no_colon h -> read_auth (h ++ ":" ++ d) = (h, Some d).
Proof.
  intros [N B]. rewrite read_unbracketed; [now apply upto_at|]. apply not_bracketed; [exact B|]. right. intros [r E]. discriminate E.
Qed.
Lemma read_plain h : no_colon h -> read_auth h = (h, None).
Proof. intros [N B]. rewrite read_unbracketed by exact B. now apply upto_plain. Qed.
Lemma read_decimal p : exists i, NilZero.int_of_string (digits p) = Some i /\ Z.of_int i = p.
Proof.
  unfold digits. exists (Z.to_int p). split; [|apply DecimalZ.of_to].
  apply NilZero.isi; intros E; pose proof (DecimalZ.of_to p) as F; rewrite E in F; cbn in F; subst p; discriminate E.
Qed.

(** URLs made for host [h] and port [p] *)
Definition made (u : url) (scheme h : string) (p : Z) : Prop :=
  u_scheme u = scheme /\ (u_auth u = (h ++ ":" ++ digits p)%string \/ (u_auth u = h /\ p = standard scheme)) /\
  (u_short u = (h ++ ":" ++ digits p)%string \/ (u_short u = h /\ p = standard scheme)).
Lemma made_app k c h p : made (app_url k c h p) (scheme_of k c) h p.
Proof.
  unfold app_url, made. cbn [u_scheme u_auth u_short]. split; [reflexivity|]. split; [now left|].
  destruct (Z.eqb_spec p (if String.eqb (scheme_of k c) "https" then 443 else 80)); [right|now left]. split; [reflexivity|exact e].
Qed.
Lemma made_slash u s h p x : made u s h p -> made (slash u x) s h p.
Proof. exact (fun H => H). Qed.
Lemma made_query u s h p x : made u s h p -> made (with_query u x) s h p.
Proof. exact (fun H => H). Qed.
Lemma made_token t s h p x : made (t_app t) s h p -> made (sslaes_token t x) s h p.
Proof. intros (A & _ & C). split; [exact A|]. split; exact C. Qed.
Lemma made_reaches u s h p : no_colon h -> made u s h p -> reaches (PUrl u) h p.
Proof.
  intros N (A & B & _). unfold reaches. destruct B as [B | [B C]]; rewrite B.
  - rewrite read_at by exact N. split; [reflexivity|apply read_decimal].
  - rewrite read_plain by exact N. rewrite A. now split.
Qed.

(** The invariant: all URLs and connections were made for [h] and [p] *)
Definition tcp (k : tkind) : bool := match k with TXor => true | _ => false end.
Definition aimed (t : transport) (s h : string) (p : Z) : Prop :=
  made (t_app t) s h p /\ (forall u, t_token t = Some u -> made u s h p) /\ (forall x, t_to t = Some x -> x = (h, p)).
Definition good (s h : string) (p : Z) (x : place) : Prop :=
  match x with PUrl u => made u s h p | PTcp h' p' => h' = h /\ p' = p end.
Definition same (t u : transport) : Prop := t_kind u = t_kind t /\ t_cfg u = t_cfg t /\ t_host u = t_host t /\ t_port u = t_port t.
Lemma aimed_state t s h p x : aimed t s h p -> aimed (with_state t x) s h p.
Proof. exact (fun H => H). Qed.
Lemma aimed_token t s h p u : aimed t s h p -> made u s h p -> aimed (with_token t u) s h p.
Proof. intros (A & B & C) U. split; [exact A|]. split; [|exact C]. intros v E. injection E as <-. exact U. Qed.
Lemma aimed_app t s h p u x : aimed t s h p -> made u s h p -> aimed (with_app t u x) s h p.
Proof. intros (A & B & C) U. split; [exact U|]. split; [exact B|exact C]. Qed.
Lemma pass_made t s h p : aimed t s h p -> made (pass_url t) s h p.
Proof.
  intros (A & B & C). unfold pass_url. destruct (t_token t) as [u|] eqn:E; [|exact A]. destruct (established t); [now apply B|exact A].
Qed.
Ltac places := repeat (apply Forall_app; split); repeat (constructor; try assumption).
(** A send keeps the invariant if a transport that may connect or rebuild aims there too *)
Lemma send_good t f s h p :
  aimed t s h p -> (t_kind t = TXor -> t_to t = None -> t_host t = h /\ t_port t = p) ->
  (t_kind t = TSsl -> t_host t = h /\ t_port t = p /\ scheme_of (t_kind t) (t_cfg t) = s) ->
  aimed (fst (send t f)) s h p /\ Forall (good s h p) (snd (send t f)) /\ same t (fst (send t f)).
Proof.
  intros A X S. unfold send. destruct (t_kind t) eqn:K.
  - (* aes *)
    assert (R : forall t l, aimed t s h p -> Forall (good s h p) l -> aimed (fst (aes_request t f l)) s h p /\ Forall (good s h p) (snd (aes_request t f l)) /\ same t (fst (aes_request t f l))).
    { intros u l U L. unfold aes_request. cbn [fst snd]. split; [destruct (f_lost f); [now apply aimed_state|exact U]|].
      split; [apply Forall_app; split; [exact L|]; constructor; [exact (pass_made _ _ _ _ U)|constructor]|destruct (f_lost f); repeat split]. }
    assert (G : forall t l, aimed t s h p -> Forall (good s h p) l -> aimed (fst (aes_login t f l)) s h p /\ Forall (good s h p) (snd (aes_login t f l)) /\ same t (fst (aes_login t f l))).
    { intros u l U L. unfold aes_login. destruct (established u); [now apply R|]. cbv zeta.
      assert (L' : Forall (good s h p) (l ++ [PUrl (pass_url u)])) by (apply Forall_app; split; [exact L|]; constructor; [exact (pass_made _ _ _ _ U)|constructor]).
      destruct (f_token f) as [tok|].
      - assert (V : aimed (with_token u (with_query (t_app u) ("token=" ++ tok))) s h p) by (apply aimed_token; [exact U|apply made_query; exact (proj1 U)]).
        destruct (R _ _ V L') as (R1 & R2 & R3). split; [exact R1|]. split; [exact R2|]. exact R3.
      - split; [now apply aimed_state|]. split; [exact L'|repeat split]. }
    unfold aes_send. assert (P : Forall (good s h p) [PUrl (t_app t)]) by (constructor; [exact (proj1 A)|constructor]).
    destruct (needs_handshake t || f_expired f)%bool; [|now apply G].
    destruct (f_hs1 f); [|split; [exact A|split; [exact P|repeat split]]].
    exact (G (with_state t SLogin) _ (aimed_state _ _ _ _ _ A) P).
  - (* klap *)
    assert (R : forall t l, aimed t s h p -> Forall (good s h p) l -> aimed (fst (klap_request t f l)) s h p /\ Forall (good s h p) (snd (klap_request t f l)) /\ same t (fst (klap_request t f l))).
    { intros u l U L. unfold klap_request. cbn [fst snd]. split; [destruct (f_lost f); [now apply aimed_state|exact U]|].
      split; [apply Forall_app; split; [exact L|]; constructor; [exact (proj1 U)|constructor]|destruct (f_lost f); repeat split]. }
    unfold klap_send. cbv zeta. assert (P : forall x, Forall (good s h p) [PUrl (slash (t_app t) x)]) by (intros x; constructor; [exact (proj1 A)|constructor]).
    destruct (needs_handshake t || f_expired f)%bool; [|apply R; [exact A|constructor]].
    destruct (f_hs1 f); [|split; [exact A|split; [apply P|repeat split]]].
    assert (P2 : Forall (good s h p) ([PUrl (slash (t_app t) "handshake1")] ++ [PUrl (slash (t_app t) "handshake2")])) by (apply Forall_app; split; apply P).
    destruct (f_hs2 f); [|split; [exact A|split; [exact P2|repeat split]]].
    exact (R (with_state t SEstablished) _ A P2).
  - (* sslaes *)
    assert (R : forall t l, aimed t s h p -> Forall (good s h p) l -> aimed (fst (sslaes_request t f l)) s h p /\ Forall (good s h p) (snd (sslaes_request t f l)) /\ same t (fst (sslaes_request t f l))).
    { intros u l U L. unfold sslaes_request. cbn [fst snd]. split; [destruct (f_lost f); [now apply aimed_state|exact U]|].
      split; [apply Forall_app; split; [exact L|]; constructor; [exact (pass_made _ _ _ _ U)|constructor]|destruct (f_lost f); repeat split]. }
    unfold sslaes_send. cbv zeta. assert (P : Forall (good s h p) [PUrl (t_app t)]) by (constructor; [exact (proj1 A)|constructor]).
    destruct (needs_handshake t); [|apply R; [exact A|constructor]].
    destruct (f_hs1 f); [|split; [exact A|split; [exact P|repeat split]]].
    assert (P2 : Forall (good s h p) ([PUrl (t_app t)] ++ [PUrl (t_app t)])) by (apply Forall_app; split; exact P).
    destruct (f_token f) as [tok|]; [|split; [exact A|split; [exact P2|repeat split]]].
    assert (V : aimed (with_token t (sslaes_token t tok)) s h p) by (apply aimed_token; [exact A|apply made_token; exact (proj1 A)]).
    destruct (R _ _ V P2) as (R1 & R2 & R3). split; [exact R1|]. split; [exact R2|exact R3].
  - (* ssl *)
    destruct (S eq_refl) as (S1 & S2 & S3).
    assert (R : forall u l, aimed u s h p -> same t u -> Forall (good s h p) l -> aimed (fst (ssl_request u f l)) s h p /\ Forall (good s h p) (snd (ssl_request u f l)) /\ same t (fst (ssl_request u f l))).
    { intros u l U (E1 & E2 & E3 & E4) L. unfold ssl_request. cbn [fst snd]. split; [destruct (f_lost f); [|exact U]|].
      - unfold ssl_reset. apply aimed_app; [exact U|]. rewrite E1, E2, E3, E4, K, S1, S2, <- S3. apply made_app.
      - split; [apply Forall_app; split; [exact L|]; constructor; [exact (proj1 U)|constructor]|]. destruct (f_lost f); repeat split; assumption. }
    unfold ssl_send. cbv zeta. assert (P : Forall (good s h p) [PUrl (t_app t)]) by (constructor; [exact (proj1 A)|constructor]).
    destruct (negb (established t) || f_expired f)%bool; [|apply R; [exact A|repeat split|constructor]].
    destruct (f_token f) as [tok|]; [|split; [exact A|split; [exact P|repeat split]]].
    apply R; [apply aimed_app; [exact A|apply made_query; exact (proj1 A)]|repeat split|exact P].
  - (* linkie *) cbn [fst snd]. split; [exact A|]. split; [constructor; [exact (proj1 A)|constructor]|repeat split].
  - (* xor *)
    destruct A as (A1 & A2 & A3). unfold xor_send. destruct (t_to t) as [[h' p']|] eqn:E.
    + pose proof (A3 _ eq_refl) as Q. assert (Q1 := f_equal fst Q). assert (Q2 := f_equal snd Q). cbn [fst snd] in Q1, Q2.
      cbn [fst snd]. split; [|split; [constructor; [split; [exact Q1|exact Q2]|constructor]|destruct (f_lost f); repeat split]].
      split; [destruct (f_lost f); exact A1|]. split; [destruct (f_lost f); exact A2|].
      destruct (f_lost f); [intros x Hx; discriminate Hx|]. intros x Hx. rewrite E in Hx. now apply A3.
    + destruct (X eq_refl eq_refl) as (X1 & X2). destruct (f_hs1 f); cbn [fst snd].
      * split; [|split; [constructor; [split; assumption|constructor; [split; assumption|constructor]]|destruct (f_lost f); repeat split]].
        split; [destruct (f_lost f); exact A1|]. split; [destruct (f_lost f); exact A2|].
        destruct (f_lost f); [intros x Hx; rewrite E in Hx; discriminate Hx|]. intros x Hx. injection Hx as <-. now rewrite X1, X2.
      * split; [split; [exact A1|split; [exact A2|intros x Hx; rewrite E in Hx; discriminate Hx]]|]. split; [constructor; [split; assumption|constructor]|repeat split].
Qed.
Lemma run_app t l1 l2 : run t (l1 ++ l2) = (fst (run (fst (run t l1)) l2), snd (run t l1) ++ snd (run (fst (run t l1)) l2)).
Proof.
  revert t; induction l1 as [|o l1 IH]; intros t; cbn [List.app run]; [cbn [fst snd List.app]; apply surjective_pairing|].
  destruct (step t o) as [t1 p1]. rewrite IH. destruct (run t1 l1) as [t2 p2]. cbn [fst snd]. now rewrite app_assoc.
Qed.
(** Runs without a change of the host *)
Lemma run_good l : forall t s h p,
  aimed t s h p -> t_host t = h -> t_port t = p -> scheme_of (t_kind t) (t_cfg t) = s -> no_set_host l ->
  aimed (fst (run t l)) s h p /\ Forall (good s h p) (snd (run t l)).
Proof.
  induction l as [|o l IH]; intros t s h p A H P S N; cbn [run]; [split; [exact A|constructor]|].
  assert (Q : aimed (fst (step t o)) s h p /\ Forall (good s h p) (snd (step t o)) /\ same t (fst (step t o))).
  { destruct o as [x|f| |]; cbn [step].
    - exfalso. apply (N x). now left.
    - apply send_good; [exact A|intros _ _; now split|intros _; now split].
    - cbn [fst snd]. split; [|split; [constructor|]]; unfold reset; destruct (t_kind t) eqn:K; try exact A; try (repeat split; fail);
        [unfold ssl_reset; apply aimed_app; [exact A|]; rewrite K, <- H, <- P, <- S; apply made_app|].
      destruct A as (A1 & A2 & A3). split; [exact A1|]. split; [exact A2|]. intros y Hy. discriminate Hy.
    - cbn [fst snd]. split; [|split; [constructor|]]; unfold reset; destruct (t_kind t) eqn:K; try exact A; try (repeat split; fail);
        [unfold ssl_reset; apply aimed_app; [exact A|]; rewrite K, <- H, <- P, <- S; apply made_app|].
      destruct A as (A1 & A2 & A3). split; [exact A1|]. split; [exact A2|]. intros y Hy. discriminate Hy. }
  destruct (step t o) as [t1 p1]. cbn [fst snd] in Q. destruct Q as (Q1 & Q2 & E1 & E2 & E3 & E4).
  assert (W := IH t1 s h p Q1). rewrite E1, E2, E3, E4 in W. specialize (W H P S).
  assert (N' : no_set_host l) by (intros x Hx; apply (N x); now right). destruct (W N') as (W1 & W2).
  destruct (run t1 l) as [t2 p2]. cbn [fst snd] in *. split; [exact W1|]. apply Forall_app; now split.
Qed.
(** Runs of the transports that make their URL once, with changes of the host *)
Definition fixed (k : tkind) : Prop := k = TAes \/ k = TKlap \/ k = TSslAes \/ k = TLinkie.
Lemma run_fixed l : forall t s h p, fixed (t_kind t) -> aimed t s h p ->
  aimed (fst (run t l)) s h p /\ Forall (good s h p) (snd (run t l)).
Proof.
  induction l as [|o l IH]; intros t s h p F A; cbn [run]; [split; [exact A|constructor]|].
  assert (Q : aimed (fst (step t o)) s h p /\ Forall (good s h p) (snd (step t o)) /\ t_kind (fst (step t o)) = t_kind t).
  { destruct o as [x|f| |]; cbn [step].
    - cbn [fst snd]. split; [exact A|]. split; [constructor|reflexivity].
    - destruct (send_good t f s h p A) as (Q1 & Q2 & Q3); [| |split; [exact Q1|split; [exact Q2|exact (proj1 Q3)]]];
        intros E; rewrite E in F; destruct F as [F | [F | [F | F]]]; discriminate F.
    - cbn [fst snd]. unfold reset. destruct F as [F | [F | [F | F]]]; rewrite F; (split; [exact A|split; [constructor|exact F || reflexivity]]).
    - cbn [fst snd]. unfold reset. destruct F as [F | [F | [F | F]]]; rewrite F; (split; [exact A|split; [constructor|exact F || reflexivity]]). }
  destruct (step t o) as [t1 p1]. cbn [fst snd] in Q. destruct Q as (Q1 & Q2 & Q3). rewrite <- Q3 in F.
  destruct (IH t1 s h p F Q1) as (W1 & W2). destruct (run t1 l) as [t2 p2]. cbn [fst snd] in *. split; [exact W1|]. apply Forall_app; now split.
Qed.
(** Host, port, kind and configuration over a run *)
Lemma send_same t f : same t (fst (send t f)).
Proof.
  unfold send. destruct (t_kind t).
  - unfold aes_send, aes_login, aes_request. destruct (needs_handshake t || f_expired f)%bool; [destruct (f_hs1 f); [|repeat split]|];
      (destruct (established _); [destruct (f_lost f); repeat split|]); cbv zeta; (destruct (f_token f); [destruct (f_lost f)|]; repeat split).
  - unfold klap_send, klap_request. cbv zeta. destruct (needs_handshake t || f_expired f)%bool; [destruct (f_hs1 f); [destruct (f_hs2 f)|]|]; try (repeat split; fail);
      destruct (f_lost f); repeat split.
  - unfold sslaes_send, sslaes_request. cbv zeta. destruct (needs_handshake t); [destruct (f_hs1 f); [destruct (f_token f)|]|]; try (repeat split; fail);
      destruct (f_lost f); repeat split.
  - unfold ssl_send, ssl_request. cbv zeta. destruct (negb (established t) || f_expired f)%bool; [destruct (f_token f)|]; try (repeat split; fail);
      destruct (f_lost f); repeat split.
  - repeat split.
  - unfold xor_send. destruct (t_to t) as [[? ?]|]; [|destruct (f_hs1 f)]; try (repeat split; fail); destruct (f_lost f); repeat split.
Qed.
Lemma run_names l : forall t, t_host (fst (run t l)) = last_host (t_host t) l /\ t_port (fst (run t l)) = t_port t /\
  t_kind (fst (run t l)) = t_kind t /\ t_cfg (fst (run t l)) = t_cfg t.
Proof.
  induction l as [|o l IH]; intros t; cbn [run]; [repeat split|].
  assert (Q : t_host (fst (step t o)) = last_host (t_host t) [o] /\ t_port (fst (step t o)) = t_port t /\ t_kind (fst (step t o)) = t_kind t /\ t_cfg (fst (step t o)) = t_cfg t).
  { destruct o as [x|f| |]; cbn [step last_host].
    - repeat split.
    - destruct (send_same t f) as (A & B & C & D). now repeat split.
    - cbn [fst]. unfold reset. destruct (t_kind t) eqn:K; repeat split; exact K.
    - cbn [fst]. unfold reset. destruct (t_kind t) eqn:K; repeat split; exact K. }
  destruct (step t o) as [t1 p1]. cbn [fst] in Q. destruct Q as (Q1 & Q2 & Q3 & Q4). destruct (IH t1) as (W1 & W2 & W3 & W4).
  destruct (run t1 l) as [t2 p2]. cbn [fst] in *. rewrite W1, W2, W3, W4, Q1, Q2, Q3, Q4. split; [|repeat split]. destruct o; reflexivity.
Qed.
Lemma port_wanted k c : wanted_port k c (port_of k c).
Proof.
  unfold port_of, default_port, given. destruct (c_override c) as [[|x|x]|] eqn:O; try (apply WOverride; [exact O|discriminate]).
  - destruct (c_http c) as [[|y|y]|] eqn:H; destruct k;
      try (apply WHttp; [discriminate|now right|exact H|discriminate]); try (apply WUsual; auto; fail);
      (assert (W : wanted_port TKlap c (usual TKlap (c_https c))) by (apply WUsual; auto)); cbn [fallback]; cbn [usual] in W; destruct (c_https c); exact W.
  - destruct (c_http c) as [[|y|y]|] eqn:H; destruct k;
      try (apply WHttp; [discriminate|now left|exact H|discriminate]); try (apply WUsual; auto; fail);
      (assert (W : wanted_port TKlap c (usual TKlap (c_https c))) by (apply WUsual; auto)); cbn [fallback]; cbn [usual] in W; destruct (c_https c); exact W.
Qed.
Lemma new_aimed k c : aimed (new_transport k c) (scheme_of k c) (c_host c) (port_of k c).
Proof. split; [apply made_app|]. split; intros x E; discriminate E. Qed.

(** The plain TCP transport *)
Lemma xor_run l : forall t, t_kind t = TXor -> (t_to t = None \/ t_to t = Some (t_host t, t_port t)) -> no_set_host l ->
  Forall (fun x => x = PTcp (t_host t) (t_port t)) (snd (run t l)).
Proof.
  induction l as [|o l IH]; intros t K C N; cbn [run]; [constructor|].
  assert (N' : no_set_host l) by (intros x Hx; apply (N x); now right).
  assert (Q : t_kind (fst (step t o)) = TXor /\ t_host (fst (step t o)) = t_host t /\ t_port (fst (step t o)) = t_port t /\
    (t_to (fst (step t o)) = None \/ t_to (fst (step t o)) = Some (t_host t, t_port t)) /\ Forall (fun x => x = PTcp (t_host t) (t_port t)) (snd (step t o))).
  { destruct o as [x|f| |]; cbn [step].
    - exfalso. apply (N x). now left.
    - unfold send. rewrite K. unfold xor_send. destruct C as [C | C]; rewrite C.
      + destruct (f_hs1 f); [destruct (f_lost f)|]; cbn [fst snd]; repeat split; auto; repeat constructor.
      + destruct (f_lost f); cbn [fst snd]; repeat split; auto; repeat constructor.
    - unfold reset. rewrite K. cbn [fst snd]. repeat split; auto.
    - unfold reset. rewrite K. cbn [fst snd]. repeat split; auto. }
  destruct (step t o) as [t1 p1]. cbn [fst snd] in Q. destruct Q as (Q1 & Q2 & Q3 & Q4 & Q5).
  assert (W := IH t1 Q1). rewrite Q2, Q3 in W. specialize (W Q4 N'). destruct (run t1 l) as [t2 p2]. cbn [snd] in *. apply Forall_app; now split.
Qed.
(** The SSL transport has neither a token URL nor a connection of its own *)
Lemma ssl_bare l : forall t, t_kind t = TSsl -> t_token t = None -> t_to t = None -> t_token (fst (run t l)) = None /\ t_to (fst (run t l)) = None.
Proof.
  induction l as [|o l IH]; intros t K A B; cbn [run]; [now split|].
  assert (Q : t_kind (fst (step t o)) = TSsl /\ t_token (fst (step t o)) = None /\ t_to (fst (step t o)) = None).
  { destruct o as [x|f| |]; cbn [step].
    - now repeat split.
    - unfold send. rewrite K. unfold ssl_send, ssl_request, ssl_reset. cbv zeta. destruct (negb (established t) || f_expired f)%bool; [destruct (f_token f)|];
        try (now repeat split); destruct (f_lost f); now repeat split.
    - unfold reset. rewrite K. now repeat split.
    - unfold reset. rewrite K. now repeat split. }
  destruct (step t o) as [t1 p1]. cbn [fst] in Q. destruct Q as (Q1 & Q2 & Q3). destruct (IH t1 Q1 Q2 Q3) as (W1 & W2). now destruct (run t1 l).
Qed.
(** Sends that lose no session stay where the transport was aimed *)
Lemma kept_sends fs : forall t s h p, (t_kind t = TSsl \/ (t_kind t = TXor /\ t_to t <> None)) -> aimed t s h p -> (forall f, In f fs -> f_lost f = false) ->
  Forall (good s h p) (snd (run t (map OSend fs))).
Proof.
  induction fs as [|f fs IH]; intros t s h p K A L; cbn [map run step]; [constructor|].
  assert (F : f_lost f = false) by (apply L; now left).
  assert (Q : (t_kind (fst (send t f)) = TSsl \/ (t_kind (fst (send t f)) = TXor /\ t_to (fst (send t f)) <> None)) /\ aimed (fst (send t f)) s h p /\ Forall (good s h p) (snd (send t f))).
  { unfold send. destruct K as [K | [K C]]; rewrite K.
    - unfold ssl_send, ssl_request. rewrite F. cbv zeta. destruct (negb (established t) || f_expired f)%bool; [destruct (f_token f)|]; cbn [fst snd].
      + split; [left; exact K|]. assert (V : aimed (with_app t (with_query (t_app t) ("token=" ++ s0)) SEstablished) s h p) by (apply aimed_app; [exact A|exact (proj1 A)]).
        split; [exact V|]. repeat (constructor; [exact (proj1 A)|]). constructor.
      + split; [left; exact K|]. split; [exact A|]. constructor; [exact (proj1 A)|constructor].
      + split; [left; exact K|]. split; [exact A|]. constructor; [exact (proj1 A)|constructor].
    - unfold xor_send. destruct (t_to t) as [[h' p']|] eqn:E; [|congruence]. rewrite F. cbn [fst snd].
      pose proof (proj2 (proj2 A) _ E) as Q. assert (Q1 := f_equal fst Q). assert (Q2 := f_equal snd Q).
      split; [right; split; [exact K|rewrite E; discriminate]|]. split; [exact A|]. constructor; [split; [exact Q1|exact Q2]|constructor]. }
  destruct (send t f) as [t1 p1]. cbn [fst snd] in Q. destruct Q as (Q1 & Q2 & Q3).
  assert (W := IH t1 s h p Q1 Q2 (fun g Hg => L g (or_intror Hg))). destruct (run t1 (map OSend fs)) as [t2 p2]. cbn [snd] in *. apply Forall_app; now split.
Qed.
