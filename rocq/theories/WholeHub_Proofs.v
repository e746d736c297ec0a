(** Proofs for [WholeHub_Props]. *)
From Verif Require Import Base Base_Lemmas Py Codes_Model Retry_Model Smart_Model Smart_Spec Child_Model Child_Spec Hub_Model Hub_Spec Hub_Proofs.
From Verif Require Import Stack_Spec Smod_Model Smod_Spec Whole_Model Whole_Spec Whole_Proofs Family_Model Family_Spec Family_Proofs Family_Props WholeHub_Model WholeHub_Spec.
Open Scope string_scope.
Open Scope list_scope.
Open Scope Z_scope.

(** ** Programs in programs *)
Lemma perform_via {D A B X R} (one : B -> Z -> Smart_Model.world D -> Smart_Model.world D * list Retry_Model.act * res (dict rval)) (f : A -> B) (p : prog A X) (k : X -> prog B R) :
  forall w, perform one (via f p k) w = let (w1, x) := perform (fun q => one (f q)) p w in perform one (k x) w1.
Proof.
  induction p as [x|q n c IH]; intros w; cbn [via perform]; [reflexivity|]. destruct (one (f q) n w) as [[w1 tr] r]. apply IH.
Qed.
Lemma leads_via {A B X R} (f : A -> B) (p : prog A X) (k : X -> prog B R) : forall qs rs r, leads (via f p k) qs rs r ->
  exists qs1 rs1 x qs2 rs2, leads p qs1 rs1 x /\ leads (k x) qs2 rs2 r /\ qs = map (fun y => (f (fst y), snd y)) qs1 ++ qs2.
Proof.
  induction p as [x|q n c IH]; intros qs rs r H; cbn [via] in H.
  - exists [], [], x, qs, rs. split; [constructor|]. now split.
  - inversion H as [|? ? ? qs0 rs0 tr a ? H0]; subst. destruct (IH _ _ _ _ H0) as (qs1 & rs1 & x & qs2 & rs2 & H1 & H2 & ->).
    exists ((q, n) :: qs1), ((tr, a) :: rs1), x, qs2, rs2. split; [now constructor|]. now split.
Qed.
Lemma leads_ret_inv {A R} (x r : R) qs rs : @leads A R (Ret x) qs rs r -> qs = [] /\ r = x.
Proof. intros H. inversion H. now split. Qed.

(** ** An update is one of those of [Family_Model] *)
Section Net.
Context {D : Type}.
Variable one : dict json -> Z -> Smart_Model.world D -> Smart_Model.world D * list Retry_Model.act * res (dict rval).
Lemma kid_update_net par parent now d w w' out : perform one (kid_update par parent now d) w = (w', out) ->
  exists n, child_update n parent now d = out.
Proof.
  unfold kid_update, child_update. destruct (Smod_Model.request _) as [|x req] eqn:Q.
  - cbn [perform]. intros H. pose proof (f_equal snd H) as E. cbn [snd] in E. exists (fun _ _ => Err Cancelled). exact E.
  - intros H. destruct (ask_for_net par one _ _ _ _ H) as (l & w1 & G). exists (net_of (Err Cancelled :: l)).
    specialize (G (net_of (Err Cancelled :: l)) (fun _ _ => eq_refl)). cbn [perform] in G. pose proof (f_equal snd G) as E. exact E.
Qed.
Lemma own_object_net par comps init now f w w' out : perform one (own_object par comps init now f) w = (w', out) ->
  exists n lists, forall kn, own_update (mkWorld n comps lists init kn) now f = out.
Proof.
  unfold own_object, own_update. cbn [w_net w_comps w_lists w_init w_kids]. destruct (started (f_dev f)).
  - intros H. destruct (update_modules_net par one _ _ _ _ _ _ H) as (l & w1 & G). exists (net_of (Err Cancelled :: l)), (Err Cancelled).
    specialize (G (net_of (Err Cancelled :: l)) (fun _ _ => eq_refl)). cbn [perform] in G. pose proof (f_equal snd G) as E. intros _. exact E.
  - cbn [perform]. destruct (one initial_query RETRIES w) as [[w1 tr] r] eqn:E. intros H. destruct r as [r|e].
    2: { exists (fun _ _ => Err e), (Err Cancelled). intros _. cbn. pose proof (f_equal snd H) as X. exact X. }
    assert (S1 : forall l, net_of (Ok (keep r) :: l) 0%nat ["component_nego"; "get_device_info"; "get_connect_cloud_state"] = Ok (keep r)) by reflexivity.
    destruct (try_get "get_device_info" (keep r)) as [i|e] eqn:T.
    2: { exists (net_of [Ok (keep r)]), (Err Cancelled). intros _. unfold Family_Model.negotiate. rewrite S1, T. pose proof (f_equal snd H) as X. exact X. }
    cbv zeta in H. destruct (comps (keep r)) as [b|e] eqn:C.
    2: { exists (net_of [Ok (keep r)]), (Err Cancelled). intros _. unfold Family_Model.negotiate. rewrite S1, T, C. pose proof (f_equal snd H) as X. exact X. }
    set (kids := match f_kids f with [] => false | _ => true end) in *.
    assert (Rest : forall lists d w1, (if b && negb kids then let! r0 := lists in Ok (set_lu (set_info (set_lu (set_started (f_dev f)) (dupdate (lu (set_started (f_dev f))) (keep r))) i) (dupdate (lu (set_info (set_lu (set_started (f_dev f)) (dupdate (lu (set_started (f_dev f))) (keep r))) i)) r0))
         else Ok (set_info (set_lu (set_started (f_dev f)) (dupdate (lu (set_started (f_dev f))) (keep r))) i)) = Ok d ->
      perform one (match init (keep r) with
                   | Err e => Ret (d, no_report, Err e)
                   | Ok l => update_modules par true now (cloud_first now (set_mods d (map (fun m => (m, fresh)) l))) Ret
                   end) w1 = (w', out) ->
      exists n, (match Family_Model.negotiate n comps lists init kids (set_started (f_dev f)) with
        | (d, Err e) => (d, no_report, Err e)
        | (d, Ok _) => modular_update n true now (cloud_first now d)
        end) = out).
    { intros lists d w2 L P. destruct (init (keep r)) as [l|e] eqn:I.
      - destruct (update_modules_net par one _ _ _ _ _ _ P) as (ls & w3 & G). exists (net_of (Ok (keep r) :: ls)).
        specialize (G (net_of (Ok (keep r) :: ls)) (fun _ _ => eq_refl)). cbn [perform] in G. pose proof (f_equal snd G) as X. cbn [snd] in X.
        unfold Family_Model.negotiate. rewrite S1, T, C, L, I. exact X.
      - exists (net_of [Ok (keep r)]). unfold Family_Model.negotiate. rewrite S1, T, C, L, I. pose proof (f_equal snd P) as X. exact X. }
    destruct (b && negb kids) eqn:B.
    + cbn [perform] in H. destruct (one lists_query RETRIES w1) as [[w2 tr2] r2] eqn:E2. destruct r2 as [r2|e].
      * destruct (Rest (Ok (keep r2)) _ w2 eq_refl H) as (n & N). exists n, (Ok (keep r2)). intros _. exact N.
      * exists (net_of [Ok (keep r)]), (Err e). intros _. unfold Family_Model.negotiate. rewrite S1, T, C, B. cbn [bind]. pose proof (f_equal snd H) as X. exact X.
    + destruct (Rest (Err Cancelled) _ w1 eq_refl H) as (n & N). exists n, (Err Cancelled). intros _. exact N.
Qed.
End Net.

Lemma update_kids_ext kn kn' p now : forall kids, (forall x, In x (dkeys kids) -> kn x = kn' x) ->
  Family_Model.update_kids kn p now kids = Family_Model.update_kids kn' p now kids.
Proof.
  induction kids as [|[x k] kids IH]; intros H; [reflexivity|]. cbn [Family_Model.update_kids]. rewrite (H x (or_introl eq_refl)).
  rewrite IH; [reflexivity|]. intros y Hy. apply H. now right.
Qed.
Section Fam.
Context {D A : Type}.
Variable one : A -> Z -> Smart_Model.world D -> Smart_Model.world D * list Retry_Model.act * res (dict rval).
Variable hub : dict json -> A.
Variable kid : string -> dict json -> A.
Variable par : string -> json.
Variable kpar : string -> string -> json.
Variable make : string -> json -> json -> res dev.
Lemma update_kids_net parent now : forall kids w w' out, dwf kids ->
  perform one (update_kids kid kpar parent now kids) w = (w', out) ->
  exists kn, Family_Model.update_kids kn parent now kids = out.
Proof.
  induction kids as [|[x k] kids IH]; intros w w' out W H; cbn [update_kids] in H.
  - cbn [perform] in H. exists (fun _ _ _ => Err Cancelled). pose proof (f_equal snd H) as E. exact E.
  - rewrite perform_via in H. destruct (perform _ (kid_update _ _ _ _) w) as [w1 [[k1 r] o]] eqn:E1.
    destruct (kid_update_net _ _ _ _ _ _ _ _ E1) as (n & N).
    inversion W as [|? ? Nx Wk]; subst. destruct o as [[]|e].
    + rewrite perform_via in H. destruct (perform _ (update_kids kid kpar parent now kids) w1) as [w2 [[kids2 rs] o2]] eqn:E2.
      destruct (IH w1 w2 _ Wk E2) as (kn & K). exists (fun y => if String.eqb y x then n else kn y). cbn [Family_Model.update_kids]. rewrite String.eqb_refl, N.
      rewrite (update_kids_ext _ kn), K.
      * cbn [perform] in H. pose proof (f_equal snd H) as X. exact X.
      * intros y Hy. destruct (String.eqb_spec y x) as [->|]; [contradiction|reflexivity].
    + exists (fun _ => n). cbn [Family_Model.update_kids]. rewrite N. cbn [perform] in H. pose proof (f_equal snd H) as X. exact X.
Qed.
End Fam.

(** ** The children stay a dictionary *)
Lemma push_wf kids i : dwf kids -> dwf (push kids i).
Proof.
  intros W. unfold push. destruct i; try exact W. destruct (dget "device_id" d) as [[]|]; try exact W. destruct (dget s kids); [now apply dwf_dset|exact W].
Qed.
Lemma push_all_wf l : forall kids, dwf kids -> dwf (fold_left push l kids).
Proof. induction l as [|i l IH]; intros kids W; [exact W|]. cbn [fold_left]. apply IH. now apply push_wf. Qed.
Lemma ddel_wf {A} k (d : dict A) : dwf d -> dwf (ddel k d).
Proof.
  unfold dwf, dkeys. induction d as [|[x v] d IH]; intros W; [constructor|]. cbn [map fst] in W. inversion W as [|? ? N W']; subst. cbn [ddel].
  destruct (String.eqb k x); [now apply IH|]. cbn [map fst]. constructor; [|now apply IH].
  intros I. apply N. clear - I. induction d as [|[y u] d IH]; [exact I|]. cbn [ddel] in I. destruct (String.eqb k y); [right; auto|]. destruct I as [<-|I]; [now left|right; auto].
Qed.
Section Wf.
Variable make : string -> json -> json -> res dev.
Lemma visit_wf comps ex i a a' o : visit make comps ex i a = (a', o) -> dwf (a_kids a) -> dwf (a_kids a').
Proof.
  unfold visit, log_once. intros H W.
  destruct (jget "device_id" i) as [v|e]; [|injection H as <- _; exact W].
  destruct v; try (injection H as <- _; exact W).
  destruct (String.eqb s ""); [injection H as <- _; exact W|]. destruct (dget s comps); [|injection H as <- _; exact W].
  destruct (smem s ex); [injection H as <- _; exact W|]. cbv zeta in H.
  destruct (make s i j); [|injection H as <- _; exact W]. injection H as <- _. cbn [a_kids]. now apply dwf_dset.
Qed.
Lemma visit_all_wf comps ex l : forall a a' o, visit_all make comps ex l a = (a', o) -> dwf (a_kids a) -> dwf (a_kids a').
Proof.
  induction l as [|i l IH]; intros a a' o H W; cbn [visit_all] in H; [injection H as <- _; exact W|].
  unfold mbind in H. destruct (visit make comps ex i a) as [a1 [[]|e]] eqn:E.
  - exact (IH _ _ _ H (visit_wf _ _ _ _ _ _ E W)).
  - injection H as <- _. exact (visit_wf _ _ _ _ _ _ E W).
Qed.
Lemma children_info_wf f f' o : children_info make f = (f', o) -> dwf (f_kids f) -> dwf (f_kids f').
Proof.
  unfold children_info. intros H W. destruct (dget LIST (lu (f_dev f))) as [[v|c]|]; try (injection H as <- _; exact W).
  destruct (truthy v); [|injection H as <- _; exact W]. destruct (dget COMPONENTS (lu (f_dev f))) as [c|]; [|injection H as <- _; exact W].
  destruct (create_delete make v c f) as [f1 o1] eqn:E.
  assert (W1 : dwf (f_kids f1)).
  { unfold create_delete in E. destruct (match c with RVal _ => _ | RErr _ => _ end) as [comps|e]; [|injection E as <- _; exact W].
    destruct (let! l := jitem "child_device_list" v in jiter l) as [l|e]; [|injection E as <- _; exact W]. cbv zeta in E.
    destruct (visit_all make comps (dkeys (f_kids f)) l (mkAcc (f_kids f) (f_logged f) [] false)) as [a oa] eqn:V.
    pose proof (visit_all_wf _ _ _ _ _ _ V W) as Wa. destruct oa as [[]|e]; injection E as <- _; [|exact Wa]. cbn [f_kids].
    clear - Wa. revert Wa. generalize (filter (fun x => negb (smem x (a_seen a))) (dkeys (f_kids f))). intros l. generalize (a_kids a). induction l as [|y l IH]; intros d Wd; [exact Wd|].
    cbn [fold_left]. apply IH. now apply ddel_wf. }
  destruct o1 as [[l b]|e]; injection H as <- _; [|exact W1]. cbn [f_kids]. now apply push_all_wf.
Qed.
End Wf.

(** ** The queries that are made *)
Definition plain_req (par : string -> json) (req : list string) (q : dict json * Z) : Prop :=
  snd q = RETRIES /\ exists r, r <> [] /\ NoDup r /\ incl r req /\ fst q = with_params par r.
Lemma leads_alone {R} par (req0 : list string) : forall req (k : res (dict reply) -> prog (dict json) R) qs rs r, incl req req0 -> leads (alone par req k) qs rs r ->
  exists qs1 a qs2 rs2, qs = qs1 ++ qs2 /\ Forall (plain_req par req0) qs1 /\ leads (k a) qs2 rs2 r.
Proof.
  induction req as [|x req IH]; intros k qs rs r I H; cbn [alone] in H.
  - exists [], (Ok []), qs, rs. now repeat split.
  - inversion H as [|? ? ? qs0 rs0 tr a ? H0]; subst.
    assert (P : plain_req par req0 ([(x, par x)], RETRIES)).
    { split; [reflexivity|]. exists [x]. split; [discriminate|]. split; [repeat constructor; intros []|]. split; [|reflexivity].
      intros y [<-|[]]. apply I. now left. }
    match type of H0 with leads (match ?m with _ => _ end) _ _ _ => destruct m as [v|e] end.
    + destruct (IH _ _ _ _ (fun y Hy => I y (or_intror Hy)) H0) as (qs1 & a1 & qs2 & rs2 & -> & F & L).
      exists (([(x, par x)], RETRIES) :: qs1), (let! rest := a1 in Ok ((x, v) :: rest)), qs2, rs2. split; [reflexivity|]. split; [now constructor|exact L].
    + exists [([(x, par x)], RETRIES)], (Err e), qs0, rs0. split; [reflexivity|]. split; [repeat constructor; apply P|exact H0].
Qed.
Lemma leads_ask_for {R} par req (k : res (dict reply) -> prog (dict json) R) qs rs r : req <> [] -> NoDup req -> leads (ask_for par req k) qs rs r ->
  exists qs1 a qs2 rs2, qs = qs1 ++ qs2 /\ Forall (plain_req par req) qs1 /\ leads (k a) qs2 rs2 r.
Proof.
  intros N W H. unfold ask_for in H. inversion H as [|? ? ? qs0 rs0 tr a ? H0]; subst.
  assert (P : plain_req par req (with_params par req, RETRIES)).
  { split; [reflexivity|]. exists req. repeat split; try assumption. intros y Hy. exact Hy. }
  destruct a as [a|e].
  - exists [(with_params par req, RETRIES)], (Ok (keep a)), qs0, rs0. split; [reflexivity|]. split; [now constructor|exact H0].
  - destruct (is_exception e).
    + destruct (leads_alone par req req _ _ _ _ (fun y Hy => Hy) H0) as (qs1 & a1 & qs2 & rs2 & -> & F & L).
      exists ((with_params par req, RETRIES) :: qs1), a1, qs2, rs2. split; [reflexivity|]. split; [now constructor|exact L].
    + exists [(with_params par req, RETRIES)], (Err e), qs0, rs0. split; [reflexivity|]. split; [now constructor|exact H0].
Qed.
Lemma leads_kid par parent now d qs rs d' r o : leads (kid_update par parent now d) qs rs (d', r, o) ->
  Forall (fun q => exists req, requested r = Some req /\ plain_req par req q) qs.
Proof.
  unfold kid_update. set (l := planned _ _ _ _). destruct (Smod_Model.request (map (fun x => (fst (fst x), snd x)) l)) as [|x req] eqn:Q; intros H.
  - destruct (leads_ret_inv _ _ _ _ H) as (-> & _). constructor.
  - assert (W : NoDup (x :: req)) by (rewrite <- Q; apply request_nodup).
    destruct (leads_ask_for par (x :: req) _ _ _ _ ltac:(discriminate) W H) as (qs1 & a & qs2 & rs2 & -> & F & L).
    destruct (leads_ret_inv _ _ _ _ L) as (-> & E). rewrite app_nil_r.
    assert (Rq : requested r = Some (x :: req)) by (destruct a; injection E as _ -> _; reflexivity).
    revert F. apply Forall_impl. intros q P. exists (x :: req). now split.
Qed.
Lemma proper_plain par req q : plain_req par req q -> ~ In "multipleRequest" req -> proper (CDict (fst q)) /\ 0 <= snd q.
Proof.
  intros (E & r & N & W & I & ->) M. split; [|rewrite E; unfold RETRIES; lia]. unfold proper. cbn [content].
  assert (K : map fst (map (fun kv : string * json => (fst kv, given (snd kv))) (with_params par r)) = r).
  { rewrite map_map. cbn [fst]. exact (keys_with_params par r). }
  rewrite K. split; [|split; [exact W|]].
  - destruct r; [now contradiction N|discriminate].
  - intros X. apply M. now apply I.
Qed.
Section Made.
Context {A : Type}.
Variable hub : dict json -> A.
Variable kid : string -> dict json -> A.
Variable par : string -> json.
Variable kpar : string -> string -> json.
Variable make : string -> json -> json -> res dev.
Definition to_kid (x : A * Z) : Prop := exists id l, fst x = kid id l /\ proper (CDict l) /\ 0 <= snd x.
Lemma leads_kids parent now : forall kids qs rs kids' reps o, leads (update_kids kid kpar parent now kids) qs rs (kids', reps, o) ->
  modest reps -> Forall to_kid qs.
Proof.
  induction kids as [|[x k] kids IH]; intros qs rs kids' reps o H M; cbn [update_kids] in H.
  - destruct (leads_ret_inv _ _ _ _ H) as (-> & _). constructor.
  - destruct (leads_via _ _ _ _ _ _ H) as (qs1 & rs1 & [[k1 r1] o1] & qs2 & rs2 & H1 & H2 & ->).
    assert (X : Forall (fun q => exists req, requested r1 = Some req /\ plain_req (kpar x) req q) qs1) by exact (leads_kid _ _ _ _ _ _ _ _ _ H1).
    assert (G : (forall req, requested r1 = Some req -> ~ In "multipleRequest" req) -> Forall to_kid (map (fun y : dict json * Z => (kid x (fst y), snd y)) qs1)).
    { intros N. apply Forall_forall. intros q Hq. apply in_map_iff in Hq. destruct Hq as (y & <- & Hy). rewrite Forall_forall in X.
      destruct (X y Hy) as (req & Rq & P). destruct (proper_plain _ _ _ P (N _ Rq)) as (P1 & P2). exists x, (fst y). split; [reflexivity|]. now split. }
    destruct o1 as [[]|e].
    + destruct (leads_via _ _ _ _ _ _ H2) as (qs3 & rs3 & [[kids3 reps3] o3] & qs4 & rs4 & H3 & H4 & ->).
      destruct (leads_ret_inv _ _ _ _ H4) as (-> & E). injection E as _ -> _.
      rewrite app_nil_r. apply Forall_app. split.
      * apply G. intros req Rq. exact (M x r1 req (or_introl eq_refl) Rq).
      * assert (F : Forall to_kid qs3) by (apply (IH _ _ _ _ _ H3); intros y ry req I Rq; exact (M y ry req (or_intror I) Rq)).
        rewrite (map_ext _ (fun y => y)), map_id; [exact F|]. now intros [].
    + destruct (leads_ret_inv _ _ _ _ H2) as (-> & E). injection E as _ -> _. rewrite app_nil_r.
      apply G. intros req Rq. exact (M x r1 req (or_introl eq_refl) Rq).
Qed.
Lemma leads_family is_hub uc comps init now f qs rs f' r reps o : leads (update_family hub kid par kpar make is_hub uc comps init now f) qs rs (f', r, reps, o) ->
  modest reps -> Forall (fun x => (exists q, fst x = hub q) \/ to_kid x) qs.
Proof.
  unfold update_family. intros H M.
  destruct (leads_via _ _ _ _ _ _ H) as (qs1 & rs1 & [[d1 r1] o1] & qs2 & rs2 & _ & H2 & ->).
  apply Forall_app. split.
  - apply Forall_forall. intros q Hq. apply in_map_iff in Hq. destruct Hq as (y & <- & _). left. now exists (fst y).
  - destruct o1 as [[]|e]; [|destruct (leads_ret_inv _ _ _ _ H2) as (-> & _); constructor].
    destruct (children_info make (mkFam d1 (f_kids f) (f_logged f))) as [f1 [b|e]]; [|destruct (leads_ret_inv _ _ _ _ H2) as (-> & _); constructor].
    destruct (b || uc || negb is_hub); [|destruct (leads_ret_inv _ _ _ _ H2) as (-> & _); constructor].
    destruct (leads_via _ _ _ _ _ _ H2) as (qs3 & rs3 & [[kids3 reps3] o3] & qs4 & rs4 & H3 & H4 & ->).
    destruct (leads_ret_inv _ _ _ _ H4) as (-> & E). injection E as _ _ -> _. rewrite app_nil_r.
    pose proof (leads_kids _ _ _ _ _ _ _ _ H3 M) as F. rewrite (map_ext _ (fun y => y)), map_id by (now intros []).
    revert F. apply Forall_impl. now right.
Qed.
End Made.

(** ** What the children say *)
Section Say.
Context {D : Type}.
Variable life : D -> D.
Variable act : string -> D -> string -> option json -> D * answer.
Variable send : D -> Smart_Model.request -> D * res (dict json).
Variable treset : D -> D.
Variable kans : string -> string -> option json -> answer.
Hypothesis Hact : forall id d m p, snd (act id d m p) = kans id m p.
Notation here := (at_hand life act send treset).
Lemma acts_say id : forall l d, exists d', acts act id d l = (d', map (fun mp => (fst mp, kans id (fst mp) (snd mp))) l).
Proof.
  induction l as [|[m p] l IH]; intros d; [now exists d|]. cbn [acts]. pose proof (Hact id d m p) as E. destruct (act id d m p) as [d1 a]. cbn [snd] in E. subst a.
  destruct (IH d1) as (d2 & ->). now exists d2.
Qed.
Definition told_by (id : string) (kpar : string -> json) (m : string) : rval := entry_of (kans id m (given (kpar m))).
Lemma kid_asked id kpar req (w : Smart_Model.world D) : exists w1 tr, wbatch w1 = wbatch w /\
  here (ToKid id (CDict (with_params kpar req))) RETRIES w =
  (w1, tr, match req with
           | [m] => match kans id m (given (kpar m)) with AError c => Err (error_of c) | AResult j => Ok [(m, RJson j)] end
           | _ => Ok (map (fun m => (m, told_by id kpar m)) req)
           end).
Proof.
  unfold at_hand, call. cbn [content]. unfold with_params. rewrite map_map. cbn [fst snd].
  destruct (acts_say id (map (fun k => (k, given (kpar k))) req) (life (wdev w))) as (d' & E). rewrite E. rewrite map_map. cbn [fst snd].
  exists (mkW d' (wbatch w) (wlog w ++ [told id (CDict (map (fun k => (k, kpar k)) req))])), [Exec].
  split; [|destruct req as [|m [|m2 req]]; cbn [map fst snd]; [reflexivity| |]].
  - reflexivity.
  - destruct (kans id m (given (kpar m))); reflexivity.
  - rewrite !map_map. unfold told_by. destruct (kans id m (given (kpar m))); reflexivity.
Qed.
Lemma error_of_exception c : is_exception (error_of c) = true.
Proof. unfold error_of. now destruct (kind_of c). Qed.
Lemma kid_ask_for {R} id kpar req (k : res (dict reply) -> prog (dict json) R) w : NoDup req ->
  exists w1 resp, wbatch w1 = wbatch w /\ dwf resp /\
    (forall m, dget m resp = if in_dec string_dec m req then Some (shown req (told_by id kpar m)) else None) /\
    perform (fun q => here (ToKid id (CDict q))) (ask_for kpar req k) w = perform (fun q => here (ToKid id (CDict q))) (k (Ok resp)) w1.
Proof.
  intros W. unfold ask_for. cbn [perform]. destruct (kid_asked id kpar req w) as (w1 & tr & B & ->).
  assert (CC : (exists m, req = [m]) \/ length req <> 1%nat).
  { destruct req as [|m [|m2 req]]; [right; discriminate|left; now exists m|right; discriminate]. }
  destruct CC as [(m & ->)|N].
  - unfold told_by. destruct (kans id m (given (kpar m))) as [j|c] eqn:E.
    + exists w1, (keep [(m, RJson j)]). split; [exact B|]. split; [repeat constructor; intros []|]. split; [|reflexivity].
      intros y. cbn [keep map fst snd kept dget]. destruct (in_dec string_dec y [m]) as [[<- |[]]|N].
      * rewrite String.eqb_refl, E. reflexivity.
      * destruct (String.eqb y m) eqn:Q; [apply String.eqb_eq in Q; subst; exfalso; apply N; now left|reflexivity].
    + rewrite error_of_exception. cbn [alone perform]. destruct (kid_asked id kpar [m] w1) as (w2 & tr2 & B2 & E2). cbn [with_params map] in E2. rewrite E2, E.
      rewrite error_of_exception. cbn [bind].
      exists w2, [(m, RErr INTERNAL)]. split; [congruence|]. split; [repeat constructor; intros []|]. split; [|reflexivity].
      intros y. cbn [dget]. destruct (in_dec string_dec y [m]) as [[<- |[]]|N].
      * rewrite String.eqb_refl, E. reflexivity.
      * destruct (String.eqb y m) eqn:Q; [apply String.eqb_eq in Q; subst; exfalso; apply N; now left|reflexivity].
  - replace (match req with [m] => _ | _ => _ end) with (@Ok (dict rval) (map (fun m => (m, told_by id kpar m)) req))
      by (destruct req as [|m [|m2 req]]; [reflexivity|now contradiction N|reflexivity]).
    exists w1, (keep (map (fun m => (m, told_by id kpar m)) req)). split; [exact B|]. split.
    { unfold dwf, dkeys, keep. rewrite !map_map. cbn [fst]. now rewrite map_id. }
    split; [|reflexivity]. intros y. rewrite dget_keep.
    assert (G : dget y (map (fun m => (m, told_by id kpar m)) req) = if in_dec string_dec y req then Some (told_by id kpar y) else None).
    { clear. induction req as [|m req IH]; [reflexivity|]. cbn [map dget]. destruct (String.eqb_spec y m) as [->|Ne].
      - destruct (in_dec string_dec m (m :: req)) as [_|X]; [reflexivity|]. exfalso. apply X. now left.
      - rewrite IH. destruct (in_dec string_dec y req) as [I|X]; destruct (in_dec string_dec y (m :: req)) as [I'|X']; try reflexivity.
        + exfalso. apply X'. now right.
        + destruct I' as [->|I']; [now contradiction Ne|contradiction]. }
    rewrite G. destruct (in_dec string_dec y req); [|reflexivity]. cbn [option_map]. f_equal. unfold shown, kept.
    destruct (told_by id kpar y); [reflexivity|]. destruct req as [|m [|m2 req]]; [reflexivity|now contradiction N|reflexivity].
Qed.
Lemma kid_says id kpar parent now d w : exists w1 d' r, wbatch w1 = wbatch w /\
  perform (fun q => here (ToKid id (CDict q))) (kid_update kpar parent now d) w = (w1, (d', r, Ok tt)) /\ info d' = info d /\
  match requested r with
  | None => lu d' = lu d
  | Some req => forall m, dget m (lu d') = if in_dec string_dec m req then Some (shown req (told_by id kpar m)) else None
  end.
Proof.
  unfold kid_update. set (l := planned _ _ _ _). destruct (Smod_Model.request (map (fun x => (fst (fst x), snd x)) l)) as [|x req] eqn:Q.
  - do 3 eexists. split; [|split; [reflexivity|]]; [reflexivity|]. split; reflexivity.
  - assert (W : NoDup (x :: req)) by (rewrite <- Q; apply request_nodup).
    match goal with |- context [ask_for kpar (x :: req) ?kk] => destruct (kid_ask_for id kpar (x :: req) kk w W) as (w1 & resp & B & _ & G & ->) end.
    cbn [perform]. do 3 eexists. split; [exact B|]. split; [reflexivity|]. cbn [requested report_of lu set_started set_lu set_mods info]. split; [reflexivity|exact G].
Qed.
Lemma kids_say kpar parent now : forall kids (w : Smart_Model.world D), exists w1 kids' rs, wbatch w1 = wbatch w /\
  perform here (update_kids (fun x q => ToKid x (CDict q)) kpar parent now kids) w = (w1, (kids', rs, Ok tt)) /\
  Forall2 (fun xk xk' => fst xk' = fst xk /\ info (snd xk') = info (snd xk)) kids kids' /\
  Forall2 (fun xk xr => fst xk = fst xr /\
    forall req, requested (snd xr) = Some req -> forall m, dget m (lu (snd xk)) =
      if in_dec string_dec m req then Some (shown req (told_by (fst xk) (kpar (fst xk)) m)) else None) kids' rs.
Proof.
  induction kids as [|[x k] kids IH]; intros w; cbn [update_kids].
  - do 3 eexists. split; [|split; [reflexivity|]]; [reflexivity|]. split; constructor.
  - rewrite perform_via. destruct (kid_says x (kpar x) (Some parent) now k w) as (w1 & k1 & r1 & B1 & E1 & I1 & S1). rewrite E1.
    rewrite perform_via. destruct (IH w1) as (w2 & kids2 & rs2 & B2 & E2 & F2 & G2).
    change (fun q : Hub_Spec.ask => here q) with here. rewrite E2. cbn [perform].
    do 3 eexists. split; [|split; [reflexivity|]]; [congruence|]. split; [constructor; [now split|exact F2]|]. constructor; [|exact G2].
    split; [reflexivity|]. cbn [fst snd]. intros req Rq. rewrite Rq in S1. exact S1.
Qed.
End Say.
