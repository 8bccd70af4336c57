(** The actions of a proposal are carried out in full: induction over everything delivered. *)
From Coq Require Import Permutation.
From Verif Require Import Base OMap OMapLemmas Assets PollModel PollSpec PollProofs PollFacts FundsModel FundsSpec MemberModel MemberSpec
  MemberProofs MemberFacts Msgs ControllerModel ControllerSpec ControllerProofs ControllerFacts TreasuryModel TreasurySpec TreasuryProofs
  EnterpriseModel EnterpriseSpec EnterpriseFacts OutpostsModel WorldModel WorldSpec WorldMember WorldProofs WorldRun LiftFacts FacadeSpec
  RewardProofs PurseSpec PurseProofs RuleSpec RuleProofs OrderSpec OrderProofs DoneSpec.

(** * Lists *)

Lemma in_turn_refl {T} (l : list T) : in_turn l l.
Proof. induction l; constructor; assumption. Qed.
Lemma in_turn_grow {T} (k l r : list T) : in_turn k l -> in_turn k (l ++ r).
Proof. induction 1; cbn; constructor; assumption. Qed.
Lemma in_turn_app {T} (k1 l1 k2 l2 : list T) : in_turn k1 l1 -> in_turn k2 l2 -> in_turn (k1 ++ k2) (l1 ++ l2).
Proof.
  intros H H2. induction H; cbn [app]; [|constructor; assumption|constructor; assumption].
  induction l; cbn [app]; [exact H2|]. constructor. exact IHl.
Qed.

Section P.
Context {X : Type}.
Variable Out : outside X.
Variable A : addrs.
Hypothesis HA : NoDup (dao_addrs A).
Local Notation world := (world X).
Local Notation go := (go Out A).
Local Notation oracle := (ctl_oracle_of Out A).
Local Notation ctl_addr := (a_controller A).
Local Notation en_addr := (a_enterprise A).

(** * Actions *)

Lemma action_meant o s a s' subs att t : co_components o = Ok (wiring_of A att) -> co_dao_type o = Ok t -> ct_enterprise s = en_addr ->
  run_action o s a = Ok (s', subs) -> subs = map plain (meant A t a).
Proof.
  intros HC HT HE H. destruct a; cbn [run_action] in H.
  - inversion H; subst. cbn. rewrite HE. reflexivity.
  - unfold act_gov_config in H. rewrite HC, HT in H. cb.
    match goal with H : _ = Ok subs |- _ => rename H into HM end.
    cbn [meant]. destruct (gu_unlocking_period u) eqn:EP; cb; [|reflexivity]. match goal with |- match ?x with _ => _ end = _ => destruct x end; reflexivity.
  - unfold act_council in H. rewrite HC in H. cb. destruct c; reflexivity.
  - cb. match goal with Q : to_treasury _ _ _ = Ok _ |- _ => apply (to_treasury_is _ _ _ _ _ _ HC) in Q; subst end. reflexivity.
  - cb. match goal with Q : to_treasury _ _ _ = Ok _ |- _ => apply (to_treasury_is _ _ _ _ _ _ HC) in Q; subst end. reflexivity.
  - cb. match goal with Q : to_treasury _ _ _ = Ok _ |- _ => apply (to_treasury_is _ _ _ _ _ _ HC) in Q; subst end. reflexivity.
  - cb. cbn. rewrite HE. reflexivity.
  - cb. match goal with H : parse_msgs _ = Ok _ |- _ => apply parsed in H; rename H into HP end. cbn [meant]. rewrite HP. reflexivity.
  - cb. match goal with Q : to_treasury _ _ _ = Ok _ |- _ => apply (to_treasury_is _ _ _ _ _ _ HC) in Q; subst end. reflexivity.
  - inversion H; subst. cbn. rewrite HE. reflexivity.
  - rewrite HC in H. cb. reflexivity.
  - rewrite HC in H. cb. reflexivity.
  - rewrite HC in H. cb. reflexivity.
  - rewrite HC in H. cb. reflexivity.
Qed.

Lemma actions_meant o att t : co_components o = Ok (wiring_of A att) -> co_dao_type o = Ok t -> forall l s acc s' subs,
  ct_enterprise s = en_addr -> fold_res (run_action_acc o) (s, acc) l = Ok (s', subs) -> subs = acc ++ map plain (flat_map (meant A t) l).
Proof.
  intros HC HT. induction l as [|a l IH]; intros s acc s' subs HE H; cbn [fold_res] in H.
  - inversion H; subst. rewrite app_nil_r. reflexivity.
  - unfold run_action_acc in H at 1. cbn [fst snd] in H. cb.
    match goal with H : run_action _ _ _ = Ok _ |- _ => rename H into HR end.
    pose proof (run_action_frame _ _ _ _ _ HR) as (_ & EE & _).
    rewrite (action_meant _ _ _ _ _ _ _ HC HT HE HR) in H.
    rewrite (IH _ _ _ _ (eq_trans EE HE) H). cbn [flat_map]. rewrite map_app, app_assoc. reflexivity.
Qed.

(** * The type of the DAO *)

Lemma handle_type n (w : world) e s to m coins w1 subs d : handle Out A n w e s to m coins = Ok (w1, subs, d) -> en_wired A (w_enterprise w) ->
  en_type (w_enterprise w1) = en_type (w_enterprise w).
Proof.
  intros H HW. apply handle_all in H.
  assert (ALL : forall k, others_same w w1 k -> k <> 6 -> en_type (w_enterprise w1) = en_type (w_enterprise w)).
  { intros k (_ & _ & E2 & E3 & _ & _ & E6 & _) K6. rewrite E6 by exact K6. reflexivity. }
  repeat match type of H with _ \/ _ => destruct H as [H|H] end; try (destruct H as (_ & O & _); exact (ALL _ O ltac:(discriminate))).
  - destruct H as (_ & _ & em & _ & H). exact (type_kept A _ (EvCall _ _ _) _ _ H HW).
  - destruct H as (_ & O). exact (ALL _ O ltac:(discriminate)).
Qed.
Lemma reply_type (w : world) e self id r w1 more : on_reply Out A w e self id r = Ok (w1, more) -> en_wired A (w_enterprise w) ->
  en_type (w_enterprise w1) = en_type (w_enterprise w).
Proof.
  intros H HW. apply reply_all in H. destruct H as [((_ & _ & E2 & E3 & _ & _ & E6 & _) & _)|[((_ & _ & E2 & E3 & _) & H)|(_ & _ & E2 & E3 & _ & _ & E6 & _)]].
  - rewrite E6 by discriminate; reflexivity.
  - exact (type_kept A _ (EvReply _ _) _ _ H HW).
  - rewrite E6 by discriminate; reflexivity.
Qed.
Lemma go_type n : forall (w : world) e j w' d, go n w e j = Ok (w', d) -> en_wired A (w_enterprise w) ->
  en_wired A (w_enterprise w') /\ en_type (w_enterprise w') = en_type (w_enterprise w).
Proof.
  induction n as [|n IH]; intros w e j w' d H HW; [destruct j; discriminate|].
  destruct j as [s m|self [|x rest]].
  - apply go_msg in H. destruct H as [(to & wm & coins & x & w1 & subs & d' & -> & _ & Hh & Hg)|(_ & Ho)].
    + pose proof (proj1 (handle_obeys Out A HA _ _ _ _ _ _ _ _ _ _ Hh HW)) as W1. pose proof (handle_type _ _ _ _ _ _ _ _ _ _ Hh HW) as T1.
      destruct (IH _ _ _ _ _ Hg W1) as (W2 & T2). split; [exact W2|]. rewrite T2, T1. reflexivity.
    + apply other_all in Ho. destruct Ho as (_ & _ & E2 & E3 & _ & _ & E6 & _). rewrite (E6 ltac:(discriminate)). split; [exact HW|reflexivity].
  - apply go_nil in H. destruct H as [-> _]. auto.
  - apply go_cons in H. destruct H as (n' & E & H). injection E as <-.
    assert (HR : forall wa id r wb more wc dc wd dd, en_wired A (w_enterprise wa) -> on_reply Out A wa e self id r = Ok (wb, more) ->
      go n wb e (JSubs self more) = Ok (wc, dc) -> go n wc e (JSubs self rest) = Ok (wd, dd) ->
      en_wired A (w_enterprise wd) /\ en_type (w_enterprise wd) = en_type (w_enterprise wa)).
    { intros wa id r wb more wc dc wd dd Wa Hr Hg1 Hg2. pose proof (proj1 (reply_obeys Out A HA _ _ _ _ _ _ _ Hr Wa)) as Wb.
      pose proof (reply_type _ _ _ _ _ _ _ Hr Wa) as Tb. destruct (IH _ _ _ _ _ Hg1 Wb) as (Wc & Tc). destruct (IH _ _ _ _ _ Hg2 Wc) as (Wd & Td).
      split; [exact Wd|]. congruence. }
    destruct H as [(w1 & d1 & H1 & [(_ & H2)|(id & w2 & more & w3 & d3 & _ & H2 & H3 & H4)])|(id & w2 & more & w3 & d3 & _ & _ & H2 & H3 & H4)].
    + destruct (IH _ _ _ _ _ H1 HW) as (W1 & T1). destruct (IH _ _ _ _ _ H2 W1) as (W2 & T2). split; [exact W2|congruence].
    + destruct (IH _ _ _ _ _ H1 HW) as (W1 & T1). destruct (HR _ _ _ _ _ _ _ _ _ W1 H2 H3 H4) as (W2 & T2). split; [exact W2|congruence].
    + exact (HR _ _ _ _ _ _ _ _ _ HW H2 H3 H4).
Qed.

(** * What a delivery leaves in the log *)

Lemma go_first n (w : world) e s m w' d : go n w e (JMsg s m) = Ok (w', d) -> exists l, w_log w' = l ++ (s, m) :: w_log w.
Proof.
  intros H. destruct n as [|n]; [discriminate|]. apply go_msg in H. destruct H as [(to & wm & coins & x & w1 & subs & d' & -> & _ & Hh & Hg)|(_ & Ho)].
  - apply handle_log in Hh. destruct (go_log _ _ _ _ _ _ _ _ Hg) as (l & L). exists l. rewrite L, Hh. reflexivity.
  - apply other_quiet in Ho. destruct Ho as (_ & _ & _ & E & _). exists []. exact E.
Qed.
Lemma subs_sent self e : forall msgs n (w : world) w' d, go n w e (JSubs self (map plain msgs)) = Ok (w', d) ->
  exists l, w_log w' = l ++ w_log w /\ in_turn (map (fun m => (self, m)) msgs) (rev l).
Proof.
  induction msgs as [|m msgs IH]; intros n w w' d H.
  - apply go_nil in H. destruct H as [-> _]. exists []. split; [reflexivity|constructor].
  - cbn [map] in H. apply go_cons in H. destruct H as (n' & -> & H). cbn [plain sm_msg sm_reply] in H.
    destruct H as [(w1 & d1 & H1 & [(_ & H2)|(? & ? & ? & ? & ? & [E|E] & _)])|(? & ? & ? & ? & ? & _ & E & _)]; try discriminate E.
    destruct (go_first _ _ _ _ _ _ _ H1) as (l1 & L1). destruct (IH _ _ _ _ H2) as (l2 & L2 & T2).
    exists (l2 ++ l1 ++ [(self, m)]). split; [rewrite L2, L1, <- !app_assoc; reflexivity|].
    rewrite !rev_app_distr. cbn [rev app map]. constructor. clear -T2. induction (rev l1); cbn [app]; [exact T2|]. constructor. assumption.
Qed.

(** * The controller *)

Definition errands (subs : list sub_msg) : Prop := Forall (fun x => errand A (sm_msg x) = true) subs.

Lemma hands_errands to a l : hands_over to a l -> errands l.
Proof.
  intros H. destruct H; [constructor; [reflexivity|constructor]..|]. induction H as [|t m ts l -> _ IH]; constructor; [reflexivity|exact IH].
Qed.

Lemma turn_errands w e sender m w1 subs1 : turn Out A w e sender m w1 subs1 -> free_councils w ->
  (forall id, m <> CExecuteActions id) -> m <> CDeployInitial -> (forall ch, m = CWeightsChanged ch -> sender <> a_council A) -> errands subs1.
Proof.
  intros T F N1 N2 N3. destruct T.
  - eapply Forall_impl; [|exact H4]. intros x (to & t & ->). reflexivity.
  - constructor.
  - constructor.
  - apply Forall_app. split.
    + destruct (p_status pl); try apply Forall_nil. constructor; [|constructor]. cbn. apply N.eqb_refl.
    + destruct (pi_deposit p) as [d|] eqn:ED; [|subst dep; constructor].
      destruct (pi_type p) eqn:ET; [|pose proof (F _ _ H ET); congruence].
      destruct (H7 eq_refl) as (to & HD & HH). exact (hands_errands _ _ _ HH).
  - constructor; [|constructor]. cbn. apply N.eqb_refl.
  - destruct (N1 _ eq_refl).
  - destruct H as [->|(ch & -> & E)]; [destruct (N2 eq_refl)|destruct (N3 _ eq_refl E)].
Qed.

Lemma ctl_errands n (w : world) e sender coins m s' subs w' d :
  wired A w -> free_councils w -> ctl_execute (oracle w) ctl_addr (w_ctl w) e sender coins m = Ok (s', subs) ->
  go n (set_ctl w s') e (JSubs ctl_addr subs) = Ok (w', d) -> (forall id, m <> CExecuteActions id) ->
  exists n' w1 subs1, (n' <= n)%nat /\ turn Out A w e sender m w1 subs1 /\ (exists d', go n' w1 e (JSubs ctl_addr subs1) = Ok (w', d')) /\ errands subs1.
Proof.
  intros HW HF HX HG HR. destruct (wired_components Out A _ HW) as (att & HC).
  assert (G : (m = CDeployInitial \/ exists ch, m = CWeightsChanged ch /\ sender = a_council A) \/
    (m <> CDeployInitial /\ forall ch, m = CWeightsChanged ch -> sender <> a_council A)).
  { destruct m; try (right; repeat split; congruence); [|left; left; reflexivity].
    destruct (N.eq_dec sender (a_council A)) as [->|]; [left; right; eauto|]. right. repeat split; congruence. }
  destruct G as [G|(N2 & N3)].
  - exists n, (set_ctl w s'), subs. split; [lia|]. pose proof HX as HX0. apply (WorldProofs.ctl_call A HA _ _ _ _ _ _ _ _ _ HC (wi_of _ _ HW)) in HX0.
    assert (Q : errands subs /\ ct_proposals s' = ct_proposals (w_ctl w) /\
      ct_enterprise s' = ct_enterprise (w_ctl w) /\ Forall (fun x => sm_reply x = ReplyNever /\ mild A (sm_msg x) /\ payment ctl_addr (sm_msg x) = []) subs).
    { destruct G as [->|(ch & -> & ->)].
      - split.
        + cbn [ctl_execute] in HX. unfold deploy_initial in HX. cb. rewrite HC in HX. destruct (dflt [] (ct_treasuries (w_ctl w))) as [|dd l]; cb; [constructor|].
          apply Forall_forall. intros y Hy. change (In y (map (fun d0 => plain (WasmExecute (a_outposts A) (ToOutposts (OpDeploy d0)) [])) (dd :: l))) in Hy.
          apply in_map_iff in Hy. destruct Hy as (z & <- & _). cbn. apply N.eqb_refl.
        + remember CDeployInitial as cm eqn:EM. destruct HX0; try discriminate EM;
            try (match goal with Q : creates _ |- _ => rewrite EM in Q; destruct Q end). auto.
      - cbn [ctl_execute] in HX. unfold weights_changed in HX. rewrite HC in HX. cbn [bind wiring_of c_council] in HX. rewrite N.eqb_refl in HX. injection HX as <- <-.
        repeat split; constructor. }
    destruct Q as (Q1 & Q4 & Q5 & Q6). split.
    { apply tu_other; try assumption; try reflexivity. split; [reflexivity|]. split; [reflexivity|]. split; [reflexivity|]. split; [assumption|reflexivity]. }
    split; [eexists; exact HG|exact Q1].
  - destruct (ctl_turn Out A HA _ _ _ _ _ _ _ _ _ _ HW HX HG) as (n' & w1 & subs1 & L & T & G2). exists n', w1, subs1.
    split; [exact L|]. split; [exact T|]. split; [exact G2|]. exact (turn_errands _ _ _ _ _ _ T HF HR N2 N3).
Qed.

Lemma ctl_actions (w : world) e sender coins id s' subs :
  wired A w -> ctl_execute (oracle w) ctl_addr (w_ctl w) e sender coins (CExecuteActions id) = Ok (s', subs) ->
  sender = ctl_addr /\ turn Out A w e sender (CExecuteActions id) (set_ctl w s') subs /\
  exists p, oget (ct_proposals (w_ctl w)) id = Some p /\ subs = map plain (flat_map (meant A (en_type (w_enterprise w))) (pi_actions p)).
Proof.
  intros HW HX. destruct (wired_components Out A _ HW) as (att & HC).
  pose proof HX as HX0. apply (WorldProofs.ctl_call A HA _ _ _ _ _ _ _ _ _ HC (wi_of _ _ HW)) in HX0.
  remember (CExecuteActions id) as cm eqn:EM. destruct HX0; try discriminate EM;
    try (match goal with Q : creates _ |- _ => rewrite EM in Q; destruct Q end);
    try (match goal with Q : _ \/ _ |- _ => destruct Q as [Q|(? & Q & _)]; rewrite EM in Q; discriminate Q end).
  injection EM as ->. split; [assumption|]. subst sender. split.
  { eapply tu_actions; try eassumption; try reflexivity. split; [reflexivity|]. split; [reflexivity|]. split; [reflexivity|]. split; [assumption|reflexivity]. }
  cbn [ctl_execute] in HX. unfold execute_actions in HX. apply bind_ok in HX. destruct HX as (u & _ & HX). apply bind_ok in HX. destruct HX as (p' & Hp' & HX).
  match goal with Q : oget _ id = Some p |- _ => rename Q into HP end. rewrite HP in Hp'. injection Hp' as <-. exists p. split; [exact HP|].
  refine (actions_meant _ _ _ HC _ _ _ [] _ _ (wi_of _ _ HW) HX).
  cbn. rewrite (wi_of _ _ HW). unfold enterprise_at. rewrite N.eqb_refl. reflexivity.
Qed.

(** * Everything delivered *)

(** the proposal run by an entry of the log *)
Definition run_of (x : addr * cosmos_msg) : option N :=
  match snd x with
  | WasmExecute to (ToController (CExecuteActions id)) _ => if to =? ctl_addr then Some id else None
  | _ => None
  end.
Definition complete (w : world) (l : list (addr * cosmos_msg)) : Prop :=
  forall later x id before, l = later ++ x :: before -> run_of x = Some id ->
  exists p, oget (ct_proposals (w_ctl w)) id = Some p /\ carried_out A (en_type (w_enterprise w)) (pi_actions p) later.
Definition said (x : addr * cosmos_msg) : list cosmos_msg := if fst x =? ctl_addr then matters A [snd x] else [].
Definition due (w : world) (x : addr * cosmos_msg) : list cosmos_msg :=
  match run_of x with Some id => matters A (meaning A w id) | None => [] end.
Definition pend (j : job) : list cosmos_msg :=
  match j with
  | JMsg s m => said (s, m)
  | JSubs self subs => if self =? ctl_addr then matters A (map sm_msg subs) else []
  end.
Definition balanced (w : world) l k : Prop := Permutation (flat_map said l) (flat_map (due w) l ++ k).
Definition done (w : world) l k : Prop := complete w l /\ balanced w l k.

Lemma run_errand x id : run_of x = Some id -> said x = [].
Proof.
  unfold run_of, said. destruct x as [s m]. cbn [fst snd]. destruct m; try discriminate.
  match goal with |- match ?m with _ => _ end = _ -> _ => destruct m; try discriminate end. destruct m; try discriminate.
  intros H. destruct (s =? ctl_addr); [|reflexivity]. unfold matters. cbn [filter errand]. destruct (_ =? ctl_addr); [reflexivity|discriminate].
Qed.

Lemma split_app {T} (l2 l1 later : list T) x before : l2 ++ l1 = later ++ x :: before ->
  (exists b, l2 = later ++ x :: b) \/ (exists a, later = l2 ++ a /\ l1 = a ++ x :: before).
Proof.
  revert later. induction l2 as [|y l2 IH]; intros later H.
  - right. exists later. auto.
  - destruct later as [|z later]; cbn in H; injection H as -> H; [left; exists l2; reflexivity|].
    destruct (IH _ H) as [(b & ->)|(a & -> & ->)]; [left; exists b; reflexivity|right; exists a; auto].
Qed.

Lemma due_kept (w w1 : world) l : complete w l -> kept w w1 -> en_type (w_enterprise w1) = en_type (w_enterprise w) -> flat_map (due w1) l = flat_map (due w) l.
Proof.
  intros H (_ & _ & K) ET. induction l as [|x l IH] using rev_ind; [reflexivity|]. rewrite !flat_map_app. cbn [flat_map]. rewrite !app_nil_r. f_equal.
  - apply IH. intros later y id before -> R. destruct (H (later) y id (before ++ [x])) as (p & HP & _); [rewrite <- app_assoc; reflexivity|exact R|].
    exists p. split; [exact HP|].
    destruct (H later y id (before ++ [x])) as (p' & HP' & C); [rewrite <- app_assoc; reflexivity|exact R|]. rewrite HP in HP'. injection HP' as <-. exact C.
  - unfold due. destruct (run_of x) as [id|] eqn:R; [|reflexivity]. destruct (H l x id [] eq_refl R) as (p & HP & _).
    destruct (K _ _ HP) as (p1 & HP1 & C & _). unfold meaning. rewrite HP, HP1, ET. injection C as _ _ ->. reflexivity.
Qed.

Lemma complete_app (w w1 : world) l1 l2 : complete w l1 -> kept w w1 -> en_type (w_enterprise w1) = en_type (w_enterprise w) -> complete w1 l2 -> complete w1 (l2 ++ l1).
Proof.
  intros H1 (_ & _ & K) ET H2 later x id before E R. apply split_app in E. destruct E as [(b & ->)|(a & -> & ->)]; [exact (H2 _ _ _ _ eq_refl R)|].
  destruct (H1 _ _ _ _ eq_refl R) as (p & HP & C). destruct (K _ _ HP) as (p1 & HP1 & E & _). exists p1. split; [exact HP1|].
  rewrite ET. injection E as _ _ ->. unfold carried_out in *. rewrite rev_app_distr. apply in_turn_grow. exact C.
Qed.

Lemma done_app (w w1 : world) l1 k1 l2 k2 k : done w l1 k1 -> kept w w1 -> en_type (w_enterprise w1) = en_type (w_enterprise w) -> done w1 l2 k2 ->
  Permutation k (k1 ++ k2) -> done w1 (l2 ++ l1) k.
Proof.
  intros (C1 & B1) K ET (C2 & B2) P. split; [exact (complete_app _ _ _ _ C1 K ET C2)|]. unfold balanced in *.
  rewrite !flat_map_app, (due_kept _ _ _ C1 K ET), B1, B2, P.
  rewrite <- !app_assoc. apply Permutation_app_head.
  rewrite (Permutation_app_comm k2). rewrite <- app_assoc. apply Permutation_app_head. apply Permutation_refl.
Qed.

Lemma done_nil (w : world) : done w [] [].
Proof. split; [intros [|? ?] ? ? ? E; discriminate E|apply perm_nil]. Qed.
Lemma done_one (w : world) x : run_of x = None -> done w [x] (said x).
Proof.
  intros R. split.
  - intros [|? [|? ?]] y id before E RY; injection E as E; subst; congruence.
  - unfold balanced. cbn [flat_map]. unfold due. rewrite R, !app_nil_r. apply Permutation_refl.
Qed.
Lemma errand_pend subs : errands subs -> pend (JSubs ctl_addr subs) = [].
Proof.
  intros H. cbn [pend]. rewrite N.eqb_refl. unfold matters. induction H as [|x l Hx _ IH]; [reflexivity|]. cbn [map filter]. rewrite Hx. exact IH.
Qed.
Lemma gov_done (w : world) l : done w (map (fun gm => (ctl_addr, WasmExecute (a_governance A) (ToGovernance gm) [])) l) [].
Proof.
  split.
  - intros later x id before E R. assert (I : In x (map (fun gm => (ctl_addr, WasmExecute (a_governance A) (ToGovernance gm) [])) l)) by (rewrite E; apply in_elt).
    apply in_map_iff in I. destruct I as (gm & <- & _). discriminate R.
  - unfold balanced. rewrite app_nil_r. induction l as [|x l IH]; [apply perm_nil|]. cbn [map flat_map]. unfold said at 1, due at 1. cbn [run_of fst snd].
    rewrite N.eqb_refl. unfold matters at 1. cbn [filter errand]. rewrite N.eqb_refl. exact IH.
Qed.

Definition job_done (j : job) : Prop :=
  match j with
  | JMsg s m => True
  | JSubs self subs => self = ctl_addr -> fine subs /\ Forall (fun x => sm_reply x = ReplyNever \/ errand A (sm_msg x) = true) subs
  end.
Lemma fine_done j : job_done j -> match j with JSubs self subs => self = ctl_addr -> fine subs | JMsg _ _ => True end.
Proof. destruct j; [intros; exact I|]. intros H E. exact (proj1 (H E)). Qed.
Lemma pend_cons self x rest : pend (JSubs self (x :: rest)) = pend (JMsg self (sm_msg x)) ++ pend (JSubs self rest).
Proof.
  cbn [pend]. unfold said. cbn [fst snd]. destruct (self =? ctl_addr); [|reflexivity]. unfold matters. cbn [map filter]. destruct (negb (errand A (sm_msg x))); reflexivity.
Qed.

Lemma go_done n : forall (w : world) e j w' d, go n w e j = Ok (w', d) -> wired A w -> free_councils w -> job_done j -> size w' < M64 ->
  exists l, w_log w' = l ++ w_log w /\ done w' l (pend j).
Proof.
  induction n as [n IH] using lt_wf_ind. intros w e j w' d H HW HF HJ HS.
  pose proof (layer1 Out A HA _ _ _ _ _ _ H HW (fine_done _ HJ) HS) as (LW & LK).
  pose proof (proj2 (go_type _ _ _ _ _ _ H (wi_en _ _ HW))) as LT.
  destruct j as [s m|self [|x rest]].
  - destruct n as [|n]; [discriminate|].
    apply go_msg in H. destruct H as [(to & wm & coins & x & w1 & subs & d' & -> & _ & Hh & Hg)|(NE & Ho)].
    + destruct (start_wired A w s (WasmExecute to wm coins) x HW) as (W0 & K0 & S0).
      assert (LG : w_log (set_ext (note w s (WasmExecute to wm coins)) x) = (s, WasmExecute to wm coins) :: w_log w) by reflexivity.
      assert (F0 : free_councils (set_ext (note w s (WasmExecute to wm coins)) x)) by exact HF.
      set (w0 := set_ext (note w s (WasmExecute to wm coins)) x) in *.
      pose proof (go_size _ _ _ _ _ _ _ _ Hg) as GS. pose proof (handle_log _ _ _ _ _ _ _ _ _ _ _ _ Hh) as HL.
      pose proof (handle_type _ _ _ _ _ _ _ _ _ _ Hh (wi_en _ _ W0)) as HT.
      apply handle_cases in Hh. destruct Hh as [(-> & cm & s' & -> & He & -> & _)|HH].
      * destruct (match cm with CExecuteActions id => Some id | _ => None end) as [id|] eqn:EM.
        -- destruct cm; try discriminate EM. injection EM as ->.
           destruct (ctl_actions _ _ _ _ _ _ _ W0 He) as (-> & T & p & HP & HU).
           pose proof T as TW. apply turn_wired in TW; [|assumption|lia]. destruct TW as (W1 & K1 & F1).
           pose proof (turn_free _ _ _ _ _ _ _ _ T F0) as FC1.
           assert (J1 : job_done (JSubs ctl_addr subs)).
           { intros _. split; [exact F1|]. rewrite HU. apply Forall_forall. intros y Hy. apply in_map_iff in Hy. destruct Hy as (z & <- & _). left. reflexivity. }
           destruct (IH n ltac:(lia) _ _ _ _ _ Hg W1 FC1 J1 HS) as (l & L & D).
           pose proof (layer1 Out A HA _ _ _ _ _ _ Hg W1 (fine_done _ J1) HS) as (_ & K2).
           assert (HP1 : exists p', oget (ct_proposals (w_ctl w')) id = Some p' /\ pi_actions p' = pi_actions p).
           { destruct (proj2 (proj2 (kept_trans _ _ _ K1 K2)) _ _ HP) as (p' & HP' & C & _). exists p'. injection C as _ _ C. auto. }
           destruct HP1 as (p' & HP' & EA).
           set (x0 := (ctl_addr, WasmExecute ctl_addr (ToController (CExecuteActions id)) coins)) in *.
           assert (R0 : run_of x0 = Some id) by (unfold run_of, x0; cbn; rewrite N.eqb_refl; reflexivity).
           exists (l ++ [x0]). split; [rewrite L, HL, LG, <- app_assoc; reflexivity|].
           destruct D as (DC & DB). split.
           ++ intros later y i before E R. apply split_app in E. destruct E as [(b & ->)|(a & -> & E)]; [exact (DC _ _ _ _ eq_refl R)|].
              destruct a as [|? [|? ?]]; injection E as E; try discriminate. subst y. rewrite R0 in R. injection R as <-. exists p'. split; [exact HP'|].
              rewrite app_nil_r. rewrite HU in Hg. destruct (subs_sent _ _ _ _ _ _ _ Hg) as (l' & L' & T'). rewrite L in L'. apply app_inv_tail in L'. subst l'.
              unfold carried_out. rewrite EA, LT. exact T'.
           ++ unfold balanced in *. rewrite !flat_map_app. cbn [flat_map pend]. fold x0. rewrite (run_errand _ _ R0). unfold due at 2. rewrite R0, !app_nil_r.
              rewrite DB. apply Permutation_app_head. cbn [pend]. rewrite N.eqb_refl, HU, map_map. cbn [plain sm_msg]. rewrite map_id.
              unfold meaning. rewrite HP', EA, LT. apply Permutation_refl.
        -- destruct (ctl_errands _ _ _ _ _ _ _ _ _ _ W0 F0 He Hg) as (n' & w1 & subs1 & L & T & (d2 & G) & HM).
           { intros id ->. discriminate EM. }
           pose proof (go_size _ _ _ _ _ _ _ _ G) as GS1.
           pose proof T as TW. apply turn_wired in TW; [|assumption|lia]. destruct TW as (W1 & K1 & F1).
           pose proof (turn_free _ _ _ _ _ _ _ _ T F0) as FC1. destruct (turn_log _ _ _ _ _ _ _ _ T) as (l & EL).
           assert (J1 : job_done (JSubs ctl_addr subs1)).
           { intros _. split; [exact F1|]. eapply Forall_impl; [|exact HM]. auto. }
           destruct (IH n' ltac:(lia) _ _ _ _ _ G W1 FC1 J1 HS) as (l2 & L2 & D2). rewrite (errand_pend _ HM) in D2.
           pose proof (layer1 Out A HA _ _ _ _ _ _ G W1 (fine_done _ J1) HS) as (_ & K2).
           pose proof (proj2 (go_type _ _ _ _ _ _ G (wi_en _ _ W1))) as T2.
           set (x0 := (s, WasmExecute ctl_addr (ToController cm) coins)) in *.
           assert (R0 : run_of x0 = None) by (unfold run_of, x0; cbn; destruct cm; try reflexivity; discriminate EM).
           assert (D1 : done w1 (map (fun gm => (ctl_addr, WasmExecute (a_governance A) (ToGovernance gm) [])) l ++ [x0]) (said x0)).
           { apply (done_app w1 w1 _ _ _ _ _ (done_one w1 x0 R0) (kept_refl _) eq_refl (gov_done w1 l)). rewrite app_nil_r. apply Permutation_refl. }
           exists (l2 ++ map (fun gm => (ctl_addr, WasmExecute (a_governance A) (ToGovernance gm) [])) l ++ [x0]).
           split; [rewrite L2, EL, LG, <- !app_assoc; reflexivity|].
           apply (done_app w1 w' _ _ _ _ _ D1 K2 T2 D2). rewrite app_nil_r. apply Permutation_refl.
      * assert (NC : to <> ctl_addr).
        { destruct HH as [(-> & _)|[(-> & _)|(N1 & _)]]; [apply (gov_not_ctl A HA)|apply (member_not_ctl A HA)|exact N1]. }
        assert (R0 : run_of (s, WasmExecute to wm coins) = None).
        { unfold run_of. cbn. destruct wm; try reflexivity. destruct m; try reflexivity. destruct (N.eqb_spec to ctl_addr); [contradiction|reflexivity]. }
        pose proof (done_one w' _ R0) as D0.
        destruct HH as [(-> & gm & g & -> & He & -> & ->)|HH].
        -- apply go_nil in Hg. destruct Hg as [-> _]. exists [(s, WasmExecute (a_governance A) (ToGovernance gm) coins)]. split; [exact (eq_trans HL LG)|exact D0].
        -- assert (W1 : wired A w1 /\ kept w0 w1 /\ w_ctl w1 = w_ctl w0).
           { destruct HH as [(-> & mm & s' & outs & -> & He & -> & -> & _)|(N1 & N2 & N3 & Q)].
             - destruct (member_wired A w0 s' W0) as (Q1 & Q2). split; [exact Q1|]. split; [exact Q2|]. reflexivity.
             - destruct (quiet_wired A _ _ Q W0) as (Q1 & Q2). split; [exact Q1|]. split; [exact Q2|]. apply Q. }
           destruct W1 as (W1 & K1 & EC).
           assert (F1 : free_councils w1) by (unfold free_councils; rewrite EC; exact F0).
           assert (J1 : job_done (JSubs to subs)) by (intros E; contradiction).
           destruct (IH n ltac:(lia) _ _ _ _ _ Hg W1 F1 J1 HS) as (l & L & D).
           pose proof (layer1 Out A HA _ _ _ _ _ _ Hg W1 (fine_done _ J1) HS) as (_ & K2).
           pose proof (proj2 (go_type _ _ _ _ _ _ Hg (wi_en _ _ W1))) as T2.
           exists (l ++ [(s, WasmExecute to wm coins)]). split; [rewrite L, HL, LG, <- app_assoc; reflexivity|].
           apply (done_app w1 w' _ _ _ _ _ (done_one w1 _ R0) K2 T2 D). cbn [pend]. destruct (N.eqb_spec to ctl_addr); [contradiction|]. rewrite app_nil_r. apply Permutation_refl.
    + pose proof (other_quiet _ _ _ _ _ _ _ _ Ho) as Q. assert (EL : w_log w' = w_log (note w s m)) by apply Q.
      exists [(s, m)]. split; [exact EL|]. apply done_one. unfold run_of. cbn. destruct m; try reflexivity. destruct (NE _ _ _ eq_refl).
  - apply go_nil in H. destruct H as [-> _]. exists []. split; [reflexivity|]. cbn [pend map]. destruct (self =? ctl_addr); exact (done_nil w).
  - apply go_cons in H. destruct H as (n' & -> & H).
    assert (JR : job_done (JSubs self rest)).
    { intros E. destruct (HJ E) as (Q1 & Q2). split; [exact (Forall_inv_tail Q1)|exact (Forall_inv_tail Q2)]. }
    assert (HR : forall wa id r wb more wc dc wd dd la ka, sm_reply x = ReplySuccess id \/ sm_reply x = ReplyAlways id ->
      w_log wa = la ++ w_log w -> done wa la ka -> Permutation (pend (JSubs self (x :: rest))) (ka ++ pend (JSubs self rest)) ->
      wired A wa -> free_councils wa -> on_reply Out A wa e self id r = Ok (wb, more) -> go n' wb e (JSubs self more) = Ok (wc, dc) ->
      go n' wc e (JSubs self rest) = Ok (wd, dd) -> size wd < M64 -> exists l, w_log wd = l ++ w_log w /\ done wd l (pend (JSubs self (x :: rest)))).
    { intros wa id r wb more wc dc wd dd la ka HD La Da Pa Wa Fa Hr Hg1 Hg2 Sd. pose proof (go_size _ _ _ _ _ _ _ _ Hg2) as S2.
      pose proof (reply_log _ _ _ _ _ _ _ _ _ Hr) as RL. pose proof (reply_type _ _ _ _ _ _ _ Hr (wi_en _ _ Wa)) as Tb.
      assert (P : wired A wb /\ free_councils wb /\ kept wa wb /\ job_done (JSubs self more) /\ pend (JSubs self more) = []).
      { apply reply_cases in Hr. destruct Hr as [(-> & s' & Hr & ->)|(NC & Q)].
        - assert (id = 3) as ->. { destruct (HJ eq_refl) as (Q & _). pose proof (Forall_inv Q) as Q'. cbn beta in Q'. destruct HD as [E|E], Q' as [F|F]; congruence. }
          apply reply_3 in Hr. destruct Hr as [-> ->]. destruct (scene_wired A wa (w_ctl wa) (conj eq_refl eq_refl) Wa) as (Wb & Kb).
          split; [exact Wb|]. split; [exact Fa|]. split; [exact Kb|]. split; [split; constructor|]. cbn [pend map]. destruct (_ =? _); reflexivity.
        - destruct (quiet_wired A _ _ Q Wa) as (Wb & Kb). assert (EC : w_ctl wb = w_ctl wa) by apply Q.
          split; [exact Wb|]. split; [unfold free_councils; rewrite EC; exact Fa|]. split; [exact Kb|]. split; [intros E; contradiction|].
          cbn [pend]. destruct (N.eqb_spec self ctl_addr); [contradiction|reflexivity]. }
      destruct P as (Wb & Fb & Kb & Jb & Eb).
      pose proof (layer1 Out A HA _ _ _ _ _ _ Hg1 Wb (fine_done _ Jb) ltac:(lia)) as (Wc & Kc).
      pose proof (go_free Out A HA _ _ _ _ _ _ Hg1 Wb Fb (fine_done _ Jb) ltac:(lia)) as Fc.
      pose proof (proj2 (go_type _ _ _ _ _ _ Hg1 (wi_en _ _ Wb))) as Tc.
      destruct (IH n' ltac:(lia) _ _ _ _ _ Hg1 Wb Fb Jb ltac:(lia)) as (l1 & L1 & D1). rewrite Eb in D1.
      pose proof (layer1 Out A HA _ _ _ _ _ _ Hg2 Wc (fine_done _ JR) Sd) as (Wd & Kd).
      pose proof (proj2 (go_type _ _ _ _ _ _ Hg2 (wi_en _ _ Wc))) as Td.
      destruct (IH n' ltac:(lia) _ _ _ _ _ Hg2 Wc Fc JR Sd) as (l2 & L2 & D2).
      exists (l2 ++ l1 ++ la). split; [rewrite L2, L1, RL, La, <- !app_assoc; reflexivity|].
      assert (Dc : done wc (l1 ++ la) ka).
      { apply (done_app wa wc _ _ _ _ _ Da (kept_trans _ _ _ Kb Kc) (eq_trans Tc Tb) D1). rewrite app_nil_r. apply Permutation_refl. }
      exact (done_app wc wd _ _ _ _ _ Dc Kd Td D2 Pa). }
    destruct H as [(w1 & d1 & H1 & [(_ & H2)|(id & w2 & more & w3 & d3 & E & H2 & H3 & H4)])|(id & w2 & more & w3 & d3 & _ & E & H2 & H3 & H4)].
    + pose proof (go_size _ _ _ _ _ _ _ _ H2).
      pose proof (layer1 Out A HA _ _ _ _ _ _ H1 HW I ltac:(lia)) as (W1 & K1).
      pose proof (go_free Out A HA _ _ _ _ _ _ H1 HW HF I ltac:(lia)) as F1.
      destruct (IH n' ltac:(lia) _ _ _ _ _ H1 HW HF I ltac:(lia)) as (l1 & L1 & D1).
      destruct (IH n' ltac:(lia) _ _ _ _ _ H2 W1 F1 JR HS) as (l2 & L2 & D2).
      pose proof (layer1 Out A HA _ _ _ _ _ _ H2 W1 (fine_done _ JR) HS) as (_ & K2).
      pose proof (proj2 (go_type _ _ _ _ _ _ H2 (wi_en _ _ W1))) as T2.
      exists (l2 ++ l1). split; [rewrite L2, L1, <- app_assoc; reflexivity|].
      apply (done_app w1 w' _ _ _ _ _ D1 K2 T2 D2). rewrite pend_cons. apply Permutation_refl.
    + assert (Z1 : size w1 < M64).
      { pose proof (go_size _ _ _ _ _ _ _ _ H3) as G3. pose proof (go_size _ _ _ _ _ _ _ _ H4) as G4. pose proof (reply_log _ _ _ _ _ _ _ _ _ H2) as RL.
        assert (size w2 = size w1) by (unfold size; rewrite RL; reflexivity). lia. }
      pose proof (layer1 Out A HA _ _ _ _ _ _ H1 HW I Z1) as (W1 & K1).
      pose proof (go_free Out A HA _ _ _ _ _ _ H1 HW HF I Z1) as F1.
      destruct (IH n' ltac:(lia) _ _ _ _ _ H1 HW HF I Z1) as (l1 & L1 & D1).
      refine (HR _ _ _ _ _ _ _ _ _ l1 _ E L1 D1 _ W1 F1 H2 H3 H4 HS). rewrite pend_cons. apply Permutation_refl.
    + refine (HR _ _ _ _ _ _ _ _ _ [] [] (or_intror E) eq_refl (done_nil w) _ HW HF H2 H3 H4 HS). rewrite pend_cons.
      assert (EP : pend (JMsg self (sm_msg x)) = []).
      { cbn [pend]. unfold said. cbn [fst snd]. destruct (N.eqb_spec self ctl_addr) as [ES|]; [|reflexivity]. destruct (HJ ES) as (_ & Q). pose proof (Forall_inv Q) as Q'. cbn beta in Q'.
        destruct Q' as [F|F]; [congruence|]. unfold matters. cbn [filter]. rewrite F. reflexivity. }
      rewrite EP. apply Permutation_refl.
Qed.

Lemma run_done ts : forall w : world, wired A w -> free_councils w -> done w (w_log w) [] -> size (world_run Out A w ts) < M64 ->
  done (world_run Out A w ts) (w_log (world_run Out A w ts)) [].
Proof.
  induction ts as [|t ts IH]; intros w HW HF HI HS; [exact HI|].
  change (world_run Out A w (t :: ts)) with (world_run Out A (world_step Out A w t) ts) in *. pose proof (run_size Out A ts (world_step Out A w t)) as S1.
  destruct (WorldRun.step_cases Out A w t) as [E|(d & Hd & H)]; [rewrite E in *; apply IH; assumption|].
  pose proof (layer1 Out A HA _ _ _ _ _ _ H HW I ltac:(lia)) as (W1 & K1). pose proof (go_free Out A HA _ _ _ _ _ _ H HW HF I ltac:(lia)) as F1.
  pose proof (proj2 (go_type _ _ _ _ _ _ H (wi_en _ _ HW))) as T1.
  destruct (go_done _ _ _ _ _ _ H HW HF I ltac:(lia)) as (l & L & D).
  refine (IH _ W1 F1 _ HS). rewrite L. apply (done_app _ _ _ _ _ _ _ HI K1 T1 D). cbn [pend]. unfold said. cbn [fst snd app].
  destruct (N.eqb_spec (tx_signer t) ctl_addr) as [E|]; [|apply perm_nil].
  exfalso. rewrite E in Hd. revert Hd. unfold is_dao, dao_addrs. cbn. rewrite N.eqb_refl, ?Bool.orb_true_r. discriminate.
Qed.

End P.
