(** Lemmas for Power_Props. *)
From Coq Require Import QArith Lia.
From Verif Require Import Base Base_Lemmas Py IotLight_Model IotLight_Props SmartLight_Model Gadget_Model CamMod_Model Preset_Model Scene_Model Scene_Spec Scene_Props
  Factory_Model OnSince_Model Strip_Model Strip_Props Power_Model Power_Spec.
Open Scope string_scope.
Open Scope list_scope.
Open Scope Z_scope.

Lemma relabel_one {A X} (f : A -> sent) (m : M (list A) X) a (r : res X) log : m [] = ([a], r) ->
  relabel f m log = (log ++ [f a], let! _ := r in Ok tt).
Proof. intro H. unfold relabel. rewrite H. reflexivity. Qed.

(** ** Sockets *)
Definition pairs (infos : list child) : dict bool := map (fun c => (c_id c, c_state c)) infos.
Lemma pairs_state infos id : dget id (pairs infos) = socket_state infos id.
Proof.
  unfold socket_state. induction infos as [|c l IH]; [reflexivity|]. cbn [pairs map dget find fst snd]. fold (pairs l).
  rewrite (String.eqb_sym (c_id c) id). destruct (String.eqb id (c_id c)); [reflexivity|exact IH].
Qed.
Lemma dkeys_dget {A} (d : dict A) x : In x (dkeys d) -> exists b, dget x d = Some b.
Proof.
  induction d as [|[k a] d IH]; cbn; [intros []|]. intros [->|H].
  - rewrite seqb_refl. eauto.
  - destruct (String.eqb x k); eauto.
Qed.
Lemma dget_dkeys {A} (d : dict A) x b : dget x d = Some b -> In x (dkeys d).
Proof.
  induction d as [|[k a] d IH]; cbn; [discriminate|]. destruct (String.eqb_spec x k) as [E|E]; [left; symmetry; exact E|right; auto].
Qed.
Definition put_socket (ss : dict bool) (id : string) (b : bool) : dict bool :=
  map (fun s => (fst s, if String.eqb (fst s) id then b else snd s)) ss.
Lemma put_keys ss id b : dkeys (put_socket ss id b) = dkeys ss.
Proof. unfold dkeys, put_socket. rewrite map_map. reflexivity. Qed.
Lemma put_get ss id b x : dget x (put_socket ss id b) = if String.eqb x id then match dget x ss with Some _ => Some b | None => None end else dget x ss.
Proof.
  induction ss as [|[k a] l IH]; cbn; [destruct (String.eqb x id); reflexivity|]. fold (put_socket l id b).
  destruct (String.eqb_spec x k) as [E|E].
  - subst. destruct (String.eqb k id); reflexivity.
  - exact IH.
Qed.
(** commands for the sockets [l] *)
Definition cmds (on : bool) (l : list string) : list sent := map (fun p => SSocket (p, if on then 1 else 0)) l.
Lemma takes_socket ss p (on : bool) : takes (TStrip ss) (SSocket (p, if on then 1 else 0)) = TStrip (put_socket ss p on).
Proof. cbn [takes]. unfold put_socket. destruct on; reflexivity. Qed.
Lemma all_taken on l : forall ss, exists ss', fold_left takes (cmds on l) (TStrip ss) = TStrip ss' /\ dkeys ss' = dkeys ss /\
  forall x, dget x ss' = if smem x l then match dget x ss with Some _ => Some on | None => None end else dget x ss.
Proof.
  induction l as [|p l IH]; intro ss.
  - exists ss. split; [reflexivity|]. split; [reflexivity|]. intro x. reflexivity.
  - cbn [cmds map fold_left]. fold (cmds on l). rewrite takes_socket.
    destruct (IH (put_socket ss p on)) as (ss' & -> & K & G). exists ss'. split; [reflexivity|].
    split; [rewrite K; apply put_keys|]. intro x. rewrite G, put_get. unfold smem. cbn [existsb].
    destruct (String.eqb x p) eqn:E; cbn [orb]; [|reflexivity].
    destruct (existsb (String.eqb x) l), (dget x ss); reflexivity.
Qed.
Lemma some_taken on l : forall sub ss, incl sub (cmds on l) -> exists ss', fold_left takes sub (TStrip ss) = TStrip ss' /\
  forall x b, dget x ss' = Some b -> dget x ss = Some b \/ b = on.
Proof.
  induction sub as [|m sub IH]; intros ss I; [exists ss; split; [reflexivity|auto]|].
  assert (Hm : In m (cmds on l)) by (apply I; left; reflexivity). apply in_map_iff in Hm as (p & <- & _).
  cbn [fold_left]. rewrite takes_socket. destruct (IH (put_socket ss p on)) as (ss' & -> & G); [intros y Hy; apply I; right; exact Hy|].
  exists ss'. split; [reflexivity|]. intros x b Hx. destruct (G x b Hx) as [H|H]; [|auto]. rewrite put_get in H.
  destruct (String.eqb x p); [|auto]. destruct (dget x ss); [|discriminate]. injection H as <-. auto.
Qed.
Lemma existsb_dget ss : dwf ss -> (existsb snd ss = true <-> exists x, dget x ss = Some true).
Proof.
  intro W. rewrite existsb_exists. split.
  - intros ([x b] & I & E). cbn in E. subst. exists x. apply In_dget; assumption.
  - intros (x & E). exists (x, true). split; [apply dget_In, E|reflexivity].
Qed.

(** ** What the objects say *)
Lemma sees_on v d : sees v d -> is_on v = Ok (powered v d).
Proof.
  destruct v, d; cbn [sees]; try contradiction; cbn [is_on powered]; intro H.
  - unfold Scene_Model.plug_is_on, dindex, says in *. rewrite H. destruct on; reflexivity.
  - destruct H as [_ H]. apply (bulb_read b), H.
  - destruct H as [H _]. unfold Scene_Model.plug_is_on, dindex, says in *. rewrite H. destruct (shines l); reflexivity.
  - unfold smart_is_on. rewrite H. reflexivity.
  - destruct H as [-> ->]. destruct mask; reflexivity.
  - destruct H as (E & -> & W). fold (pairs infos) in E. subst sockets.
    assert (K : known infos (dkeys (pairs infos))).
    { intros p Hp. rewrite <- pairs_state. destruct (dkeys_dget _ _ Hp) as (b & ->). discriminate. }
    destruct (strip_on infos _ K) as (b & -> & Hb). f_equal. apply Bool.eq_iff_eq_true. rewrite Hb, (existsb_dget _ W).
    split; [intros (p & _ & H); exists p; rewrite pairs_state; exact H|].
    intros (p & H). exists p. split; [exact (dget_dkeys _ _ _ H)|rewrite <- pairs_state; exact H].
  - destruct H as (E & I & W). fold (pairs infos) in E. subst sockets. rewrite pairs_state. destruct (dkeys_dget _ _ I) as (b & Hb).
    rewrite pairs_state in Hb. rewrite Hb. apply is_on_state, Hb.
Qed.

(** ** Switching *)
(** How a switch ends: [ss] is sent; if all is well the device is as wanted, if not a message failed. *)
Definition switched (reply : sent -> res json) (v : view) (d : thing) (on : bool) (ss : list sent) (r : res unit) : Prop :=
  match r with
  | Ok _ => let d' := fold_left takes ss d in powered v d' = on /\ otherwise_same v d d' on
  | Err e => exists s, In s ss /\ reply s = Err e
  end /\
  forall sub, incl sub ss -> steady v d (fold_left takes sub d) on.
(** one message that does it *)
Lemma one_message reply v d on s (r : res unit) : (forall ss, d <> TStrip ss) ->
  powered v (takes d s) = on -> otherwise_same v d (takes d s) on -> takes (takes d s) s = takes d s ->
  r = (let! _ := reply s in Ok tt) -> switched reply v d on [s] r.
Proof.
  intros N P O I ->. split.
  - destruct (reply s) as [j|e] eqn:E; cbn [bind]; [split; assumption|exists s; split; [left; reflexivity|exact E]].
  - intros sub Hs.
    assert (H : fold_left takes sub d = d \/ fold_left takes sub d = takes d s).
    { assert (G : fold_left takes sub (takes d s) = takes d s).
      { induction sub as [|m sub IH]; [reflexivity|]. cbn [fold_left]. destruct (Hs m (or_introl eq_refl)) as [<-|[]].
        rewrite I. apply IH. intros y Hy. apply Hs. right. exact Hy. }
      destruct sub as [|m sub]; [left; reflexivity|]. right. cbn [fold_left] in *. destruct (Hs m (or_introl eq_refl)) as [<-|[]].
      rewrite I in G. exact G. }
    unfold steady. destruct d; try (destruct H as [-> | ->]; auto; fail). destruct (N sockets eq_refl).
Qed.
Lemma lamp_eq a b : shines a = shines b -> looks_same a b -> a = b.
Proof. destruct a, b. unfold looks_same. cbn. intros -> (-> & -> & -> & ->). reflexivity. Qed.

Lemma turn_ok reply v d on t log : sees v d -> able d on -> timely d t ->
  exists ss r, turn reply v on t log = (log ++ ss, r) /\ switched reply v d on ss r.
Proof.
  destruct v, d; cbn [sees]; try contradiction; intros H A T; cbn [turn].
  - exists [SIot (relay on)], (let! _ := reply (SIot (relay on)) in Ok tt). split; [reflexivity|].
    apply one_message; [discriminate|destruct on; reflexivity|exact I|destruct on; reflexivity|reflexivity].
  - destruct H as [<- H]. destruct (turn_command_lemma (fun r => reply (SIot r)) b on t) as (p & Hp & Hm).
    set (q := mkReq (light_service b) (light_method b) p) in *.
    exists [SIot q], (let! _ := reply (SIot q) in Ok tt). split; [apply relabel_one; exact (Hm [])|].
    assert (B : forall l, bulb_takes b l q = mkLamp on (l_hue l) (l_sat l) (l_temp l) (l_bright l)).
    { intro l0. unfold q. rewrite (bulb_took b l0 p _ Hp). lf. destruct on; reflexivity. }
    apply one_message; [discriminate| | | |reflexivity]; cbn [takes powered otherwise_same]; rewrite ?B.
    + reflexivity.
    + split; [reflexivity|]. repeat split.
    + reflexivity.
  - destruct H as [H1 H2].
    assert (X : exists q, (if on then dimmer_turn_on (fun r => reply (SIot r)) (brightness_of sys) t else dimmer_turn_off (fun r => reply (SIot r)) t) [] =
                  ([q], reply (SIot q)) /\ forall l', l_bright l' = l_bright l -> dimmer_takes l' q = mkLamp on (l_hue l') (l_sat l') (l_temp l') (l_bright l')).
    { destruct t as [t|].
      - destruct T as (Hb & z & -> & Hz).
        assert (TO : time_ok (AInt z)).
        { unfold time_ok, duration. change (Qeq_bool (arg_q (AInt z)) 0) with (eqb_arg (AInt z) (AInt 0)). rewrite eqb_int. destruct (Z.eqb_spec z 0); [exists 1|exists z]; split; try reflexivity; lia. }
        destruct on.
        + unfold brightness_of, dimmer_brightness, dimmer_dimmable, dmem, dindex. unfold says in H2. rewrite H2. cbn [negb bind as_num int_arg dimmer_turn_on].
          destruct (dimmer_transition (fun r => reply (SIot r)) (AInt (l_bright l)) (AInt z)) as [D _].
          destruct D as (p & Hp & Hm); [split; [exists (l_bright l); split; [reflexivity|lia]|exact TO]|].
          eexists. split; [exact (Hm [])|]. intros l' E. unfold dimmer_takes. cbn [IotLight_Model.service IotLight_Model.method IotLight_Model.params].
          rewrite !(field_l _ _ _ _ Hp). lf. cbn [andb]. destruct (Z.eqb_spec (l_bright l) 0); [lia|]. rewrite E. reflexivity.
        + cbn [dimmer_turn_off].
          destruct (dimmer_transition (fun r => reply (SIot r)) (AInt 0) (AInt z)) as [D _].
          destruct D as (p & Hp & Hm); [split; [exists 0; split; [reflexivity|lia]|exact TO]|].
          eexists. split; [exact (Hm [])|]. intros l' E. unfold dimmer_takes. cbn [IotLight_Model.service IotLight_Model.method IotLight_Model.params].
          rewrite !(field_l _ _ _ _ Hp). lf. reflexivity.
      - exists (relay on). destruct on; split; reflexivity. }
    destruct X as (q & Hq & B).
    exists [SIot q], (let! _ := reply (SIot q) in Ok tt). split; [apply relabel_one; exact Hq|].
    apply one_message; [discriminate| | | |reflexivity]; cbn [takes powered otherwise_same]; rewrite ?(B l eq_refl).
    + reflexivity.
    + repeat split.
    + rewrite B by reflexivity. reflexivity.
  - eexists [_], _. split; [reflexivity|].
    apply one_message; [discriminate| |exact I| |reflexivity]; destruct on; reflexivity.
  - destruct H as [-> ->]. destruct mask as [m|]; cbn [option_map].
    + eexists [_], _. split; [reflexivity|].
      apply one_message; [discriminate| |exact I| |reflexivity]; destruct on; reflexivity.
    + cbn [able] in A. subst on. exists [], (Ok tt). split; [reflexivity|].
      split; [split; [reflexivity|exact I]|]. intros [|m sub] Hs; [left; reflexivity|destruct (Hs m (or_introl eq_refl))].
  - destruct H as (E & -> & W). fold (pairs infos) in E. subst sockets.
    set (send := fun c => let! _ := reply (SSocket c) in Ok tt).
    destruct (switch_all send on infos (dkeys (pairs infos)) []) as [l r] eqn:Es.
    destruct (strip_switch_any _ _ _ _ _ _ _ W Es) as (sent & -> & _ & Hin & Hr). cbn [List.app].
    exists (cmds on sent), (let! _ := r in Ok tt). split.
    { unfold relabel. rewrite Es. cbn [List.app]. rewrite map_map. reflexivity. }
    split.
    2:{ intros sub Hs. destruct (some_taken on sent sub (pairs infos) Hs) as (ss' & -> & G). exact G. }
    destruct r as [u|e]; cbn [bind].
    + destruct Hr as [-> _]. destruct (all_taken on (filter (in_state infos (negb on)) (dkeys (pairs infos))) (pairs infos)) as (ss' & -> & K & G).
      assert (All : forall x b, dget x ss' = Some b -> b = on).
      { intros x b Hx. rewrite G in Hx. destruct (smem x _) eqn:Ex.
        - destruct (dget x (pairs infos)); [injection Hx as <-; reflexivity|discriminate].
        - destruct (Bool.eqb b on) eqn:Eb; [apply Bool.eqb_prop, Eb|]. exfalso.
          assert (In x (filter (in_state infos (negb on)) (dkeys (pairs infos)))).
          { apply filter_In. split; [exact (dget_dkeys _ _ _ Hx)|]. unfold in_state. rewrite <- pairs_state, Hx. destruct b, on; try reflexivity; discriminate. }
          apply smem_In in H. congruence. }
      cbn [powered otherwise_same]. split; [|split; [exact K|exact All]].
      assert (W' : dwf ss') by (unfold dwf; rewrite K; exact W).
      destruct on.
      * apply (existsb_dget _ W'). destruct (pairs infos) as [|[x b] l] eqn:Ep; [discriminate A|].
        destruct (dkeys_dget ss' x) as (b' & Hb'); [rewrite K; left; reflexivity|]. exists x. rewrite Hb', (All _ _ Hb'). reflexivity.
      * destruct (existsb snd ss') eqn:Ex; [|reflexivity]. apply (existsb_dget _ W') in Ex as (x & Hx). discriminate (All _ _ Hx).
    + destruct Hr as [(i & p & -> & Hp & _)|(_ & K & _)].
      * exists (SSocket (p, if on then 1 else 0)). split; [apply in_map_iff; exists p; split; [reflexivity|apply in_or_app; right; left; reflexivity]|].
        unfold send in Hp. destruct (reply _); [discriminate|cbn in Hp; congruence].
      * exfalso. apply K. intros p Hp. rewrite <- pairs_state. destruct (dkeys_dget _ _ Hp) as (b & ->). discriminate.
  - destruct H as (E & I & W). fold (pairs infos) in E. subst sockets.
    eexists (cmds on [id]), _. split; [reflexivity|]. split.
    2:{ intros sub Hs. destruct (some_taken on [id] sub (pairs infos) Hs) as (ss' & -> & G). exact G. }
    destruct (reply _) as [j|e] eqn:Er; cbn [bind]; [|eexists; split; [left; reflexivity|exact Er]].
    destruct (all_taken on [id] (pairs infos)) as (ss' & -> & K & G). cbn [powered otherwise_same].
    destruct (dkeys_dget _ _ I) as (b & Hb). split; [|split; [exact K|]].
    + rewrite G. unfold smem. cbn [existsb]. rewrite seqb_refl, Hb. reflexivity.
    + intros x Hx. rewrite G. unfold smem. cbn [existsb]. destruct (String.eqb_spec x id); [contradiction|reflexivity].
Qed.
Lemma power_ok reply v d c t log : sees v d -> able d (wanted c (powered v d)) -> timely d t ->
  exists ss r, power reply v c t log = (log ++ ss, r) /\ switched reply v d (wanted c (powered v d)) ss r.
Proof.
  intros S A T. destruct c; cbn [power wanted] in *; try (apply turn_ok; assumption).
  unfold mbind, mlift. rewrite (sees_on _ _ S). destruct (powered v d) eqn:E; cbn [negb] in *; apply turn_ok; assumption.
Qed.

(** ** Twice *)
Lemma dict_ext (a b : dict bool) : dwf a -> dkeys b = dkeys a -> (forall x, dget x b = dget x a) -> b = a.
Proof.
  revert b. induction a as [|[k x] a IH]; intros [|[k' y] b] W K G; cbn in K; try discriminate; [reflexivity|].
  injection K as -> K. inversion W as [|? ? N W']; subst.
  pose proof (G k) as Gk. cbn in Gk. rewrite seqb_refl in Gk. injection Gk as ->. f_equal. apply IH; [exact W'|exact K|].
  intro z. destruct (String.eqb_spec z k) as [E|E].
  - subst z. destruct (dget k b) as [u|] eqn:Eb.
    { exfalso. apply N. pose proof (dget_dkeys _ _ _ Eb) as J. unfold dkeys in J. rewrite K in J. exact J. }
    destruct (dget k a) as [u|] eqn:Ea; [|reflexivity]. destruct N. exact (dget_dkeys _ _ _ Ea).
  - specialize (G z). cbn in G. destruct (String.eqb_spec z k); [contradiction|exact G].
Qed.
Lemma restored v d d1 d2 on : match d with TStrip ss => dwf ss | _ => True end ->
  (match v, d with VSocket _ _, _ => True | _, TStrip ss => forall x b, dget x ss = Some b -> b = on | _, _ => True end) ->
  match v, d with VSocket _ id, TStrip ss => In id (dkeys ss) | _, _ => True end ->
  otherwise_same v d d1 (negb on) -> otherwise_same v d1 d2 on -> powered v d = on -> powered v d2 = on -> d2 = d.
Proof.
  intros W U I O1 O2 P P2.
  destruct d, d1; try contradiction; try (destruct mask; contradiction); destruct d2; try contradiction; try (destruct mask0; contradiction);
    cbn in O1, O2; try (cbn in P, P2; congruence).
  - destruct O1 as [-> O1], O2 as [-> O2]. f_equal. apply lamp_eq; [cbn in P, P2; congruence|]. unfold looks_same in *. intuition congruence.
  - f_equal. apply lamp_eq; [cbn in P, P2; congruence|]. unfold looks_same in *. intuition congruence.
  - destruct mask, mask0, mask1; try contradiction; try reflexivity. cbn in P, P2. destruct b, b1; cbn in *; congruence.
  - destruct O1 as [K1 O1], O2 as [K2 O2]. f_equal. apply dict_ext; [exact W|congruence|]. intro x.
    destruct v; cbn [powered] in P, P2;
      try (destruct (dget x sockets1) as [b1|] eqn:E1;
           [destruct (dkeys_dget sockets x) as (b0 & E0); [rewrite <- K1, <- K2; exact (dget_dkeys _ _ _ E1)|];
            rewrite E0, (O2 _ _ E1), (U _ _ E0); reflexivity
           |destruct (dget x sockets) as [b0|] eqn:E0; [|reflexivity];
            destruct (dkeys_dget sockets1 x) as (b1 & E1'); [rewrite K2, K1; exact (dget_dkeys _ _ _ E0)|]; congruence]; fail).
    destruct (String.eqb_spec x id) as [E|E]; [subst x|rewrite (O2 x E); apply O1, E].
    destruct (dkeys_dget _ _ I) as (b & Hb). destruct (dkeys_dget sockets1 id) as (b1 & Hb1); [rewrite K2, K1; exact I|].
    rewrite Hb, Hb1 in *. congruence.
Qed.
