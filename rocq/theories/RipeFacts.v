(** Exactly when a proposal can be executed, at any time. *)
From Verif Require Import Base OMap OMapLemmas Assets PollModel PollSpec PollProofs PollFacts FundsModel FundsSpec MemberModel MemberSpec MemberProofs Msgs
  ControllerModel ControllerSpec ControllerProofs ControllerFacts TreasuryModel EnterpriseModel OutpostsModel WorldModel WorldSpec WorldMember
  WorldProofs WorldRun WorldFacts LiveSpec LiveProofs LiveFacts LiveResults EndSpec EndFacts RipeSpec.

Lemma early_iff pl now total : now < p_ends_at pl -> validate_can_end_early now total pl = Ok tt <-> clear_cut (final_status pl total).
Proof.
  intros L. unfold validate_can_end_early, clear_cut, final_status. rewrite (proj2 (N.leb_gt _ _) L).
  destruct (quorum_reached pl (p_quorum pl) total); cbn [negb guard bind]; [|split; [discriminate|intros (H & _); destruct (H eq_refl)]].
  destruct (most_voted_over_threshold pl) as [|o c|o c o2 c2].
  - split; [discriminate|intros (_ & H); destruct (H eq_refl)].
  - split; [intros _|reflexivity]. destruct (o =? outcome_u8 Yes); [split; discriminate|]. destruct (o =? outcome_u8 Veto); split; discriminate.
  - split; [intros _; split; discriminate|reflexivity].
Qed.

Section Ripe.
Context {X : Type}.
Variable Out : outside X.
Variable A : addrs.
Hypothesis HA : NoDup (dao_addrs A).
Hypothesis HF : free_calls Out.

Definition early_flag (w : world X) (p : proposal_info) : bool :=
  match pi_type p with General => gc_allow_early (ct_config (w_ctl w)) | Council => true end.

Lemma total_is w att ty pl e : total_for (ctl_oracle_of Out A w) (wiring_of A att) ty (if p_ends_at pl <=? e_time e then AtTime (p_ends_at pl) else Never)
  = Ok (counting w ty pl (e_time e)).
Proof.
  unfold total_for, counting, weight_then, weight_now, total_now. cbn. unfold members_at. destruct ty; cbn [c_membership c_council wiring_of].
  - rewrite N.eqb_refl. destruct (_ <=? _); reflexivity.
  - rewrite (proj2 (N.eqb_neq _ _)) by (apply council_not_member; exact HA). rewrite N.eqb_refl. destruct (_ <=? _); reflexivity.
Qed.

Definition started (w : world X) (s : addr) (id : N) : world X := set_ctl (note w s (ask_resolution A id)) (with_executing (w_ctl w) (Some id)).

Definition ending (id total : N) (early : bool) : cosmos_msg := WasmExecute (a_governance A) (ToGovernance (GEndPoll id total false early)) [].

(** the controller's part *)
Lemma ask_handled n (w : world X) e s id w1 subs d : wired A w ->
  handle Out A n (set_ext (note w s (ask_resolution A id)) (w_ext w)) e s (a_controller A) (ToController (CExecuteProposal id)) [] = Ok (w1, subs, d) <->
  exists p pl total, restricted_by Out A w (a_enterprise A) s = Ok false /\ oget (ct_proposals (w_ctl w)) id = Some p /\ pi_executed_at p = None /\
    (forall t, pi_earliest p = Some t -> t <= e_time e) /\ oget (g_polls (w_gov w)) id = Some pl /\ total = counting w (pi_type p) pl (e_time e) /\ total <> 0 /\
    w1 = started w s id /\ subs = [mk_sub (ending id total (early_flag w p)) (ReplySuccess 2)] /\ d = None.
Proof.
  intros W. destruct (wired_components Out A w W) as (att & HC). pose proof (wi_of _ _ W) as Hen.
  unfold handle. rewrite N.eqb_refl.
  set (w0 := set_ext (note w s (ask_resolution A id)) (w_ext w)).
  change (w_ctl w0) with (w_ctl w).
  assert (E : forall p q, ctl_execute (ctl_oracle_of Out A w0) (a_controller A) (w_ctl w) e s [] (CExecuteProposal id) = Ok (p, q) <->
     exists r pl total, restricted_by Out A w (a_enterprise A) s = Ok false /\ oget (ct_proposals (w_ctl w)) id = Some r /\ pi_executed_at r = None /\
       (forall t, pi_earliest r = Some t -> t <= e_time e) /\ oget (g_polls (w_gov w)) id = Some pl /\ total = counting w (pi_type r) pl (e_time e) /\ total <> 0 /\
       p = with_executing (w_ctl w) (Some id) /\ q = [mk_sub (ending id total (early_flag w r)) (ReplySuccess 2)]).
  { intros p q. change (co_components (ctl_oracle_of Out A w0) = Ok (wiring_of A att)) in HC.
    rewrite (execute_proposal_ok _ _ _ _ _ _ _ _ _ (wiring_of A att) HC).
    assert (ER : co_restricted (ctl_oracle_of Out A w0) s = restricted_by Out A w (a_enterprise A) s) by (cbn; rewrite Hen; reflexivity).
    assert (EP : co_poll (ctl_oracle_of Out A w0) (c_governance (wiring_of A att)) id = query_poll (w_gov w) id)
      by (cbn; unfold gov_at; rewrite N.eqb_refl; reflexivity).
    split.
    - intros (r & pl & total & H1 & H2 & H3 & H4 & H5 & H6 & H7 & H8 & H9). exists r, pl, total. rewrite ER in H1. rewrite EP in H5. apply query_poll_ok in H5.
      rewrite (total_is w0 att) in H6. change (counting w0 (pi_type r) pl (e_time e)) with (counting w (pi_type r) pl (e_time e)) in H6.
      repeat (split; [first [assumption|congruence]|]). exact H9.
    - intros (r & pl & total & H1 & H2 & H3 & H4 & H5 & H6 & H7 & H8 & H9). exists r, pl, total. rewrite ER, EP, (total_is w0 att).
      apply query_poll_ok in H5. change (counting w0 (pi_type r) pl (e_time e)) with (counting w (pi_type r) pl (e_time e)).
      repeat (split; [first [assumption|congruence]|]). exact H9. }
  split.
  - intros H. apply bind_ok in H. destruct H as ([c out] & H1 & H). apply E in H1. destruct H1 as (p & pl & total & H1 & H2 & H3 & H4 & H5 & H6 & H7 & -> & ->).
    inversion H; subst. exists p, pl, (counting w (pi_type p) pl (e_time e)). repeat (split; [first [assumption|reflexivity]|]). reflexivity.
  - intros (p & pl & total & H1 & H2 & H3 & H4 & H5 & H6 & H7 & -> & -> & ->).
    rewrite (proj2 (E (with_executing (w_ctl w) (Some id)) [mk_sub (ending id total (early_flag w p)) (ReplySuccess 2)])); [reflexivity|].
    exists p, pl, total. auto 10.
Qed.

(** the governance contract's part *)
Lemma end_iff (w : world X) e id total p pl g r : wired A w -> oget (g_polls (w_gov w)) id = Some pl ->
  gov_execute (w_gov w) e (a_controller A) (GEndPoll id total false (early_flag w p)) = Ok (g, r) <->
  (e_time e < p_ends_at pl -> may_be_early w p /\ clear_cut (final_status pl total)) /\
  g = set_poll (w_gov w) id (with_status pl (final_status pl total)) /\ r = None.
Proof.
  intros W Hpl. unfold gov_execute. rewrite (wi_admin _ _ W), N.eqb_refl. cbn [guard bind]. unfold end_poll. rewrite Hpl. cbn [ok_or bind].
  assert (Q : (if early_flag w p then validate_can_end_early (e_time e) total pl else validate_voting_period_ended (e_time e) (p_ends_at pl)) = Ok tt <->
              (e_time e < p_ends_at pl -> may_be_early w p /\ clear_cut (final_status pl total))).
  { destruct (N.lt_ge_cases (e_time e) (p_ends_at pl)) as [L|L].
    - unfold may_be_early, early_flag. destruct (pi_type p); [destruct (gc_allow_early _)|].
      + rewrite (early_iff _ _ _ L). split; [auto|]. intros H. exact (proj2 (H L)).
      + unfold validate_voting_period_ended. rewrite (proj2 (N.ltb_lt _ _) L). split; [discriminate|]. intros H. destruct (H L) as ([H1|H1] & _); discriminate.
      + rewrite (early_iff _ _ _ L). split; [auto|]. intros H. exact (proj2 (H L)).
    - split; [intros _ H; lia|]. intros _. unfold validate_can_end_early, validate_voting_period_ended.
      rewrite (proj2 (N.leb_le _ _) L), (proj2 (N.ltb_ge _ _) L). destruct (early_flag w p); reflexivity. }
  destruct (if early_flag w p then _ else _) as [[]|x].
  - cbn [bind]. split; [intros H; inversion H; split; [apply Q; reflexivity|auto]|]. intros (_ & -> & ->). reflexivity.
  - cbn [bind]. split; [discriminate|]. intros (H & _). apply Q in H. discriminate.
Qed.

Lemma ripe_exact (w : world X) e s id w' : wired A w ->
  (exists n d, go Out A n w e (JMsg s (ask_resolution A id)) = Ok (w', d)) <->
  exists p pl total v, ripe Out A w e s id p pl total /\ v = final_status pl total /\ (e_time e < p_ends_at pl -> clear_cut v) /\
    concluded Out A e id (handed A p v) v (judged A w e s id p pl total v) w'.
Proof.
  intros W. destruct (wired_components Out A w W) as (att & HC).
  (* what follows from the answer of the governance contract *)
  assert (R : forall n p pl total v, oget (ct_proposals (w_ctl w)) id = Some p -> oget (g_polls (w_gov w)) id = Some pl -> v = final_status pl total ->
     (e_time e < p_ends_at pl -> may_be_early w p /\ clear_cut v) ->
     go Out A (S (S (S n))) (started w s id) e (JSubs (a_controller A) [mk_sub (ending id total (early_flag w p)) (ReplySuccess 2)]) =
     ('(w2, _) <- go Out A (S (S n)) (judged A w e s id p pl total v) e (JSubs (a_controller A) (follow_up A id p v)) ;; Ok (w2, None))).
  { intros n p pl total v Hp Hpl EV HE.
    set (w2 := set_gov (note (started w s id) (a_controller A) (ending id total (early_flag w p))) (set_poll (w_gov w) id (with_status pl v))).
    assert (E2 : go Out A (S (S n)) (started w s id) e (JMsg (a_controller A) (ending id total (early_flag w p))) = Ok (w2, None)).
    { unfold ending at 1. rewrite go_call, HF. cbn [bind]. unfold handle. rewrite (proj2 (N.eqb_neq _ _)) by (apply gov_not_ctl; exact HA). rewrite N.eqb_refl.
      cbn [w_gov set_ext note started set_ctl]. rewrite (proj2 (end_iff w e id total p pl _ _ W Hpl) (conj (fun L => eq_ind v (fun v => may_be_early w p /\ clear_cut v) (HE L) _ EV) (conj eq_refl eq_refl))).
      cbn [bind]. rewrite go_none. rewrite <- EV. reflexivity. }
    rewrite (go_success Out A _ _ _ _ _ _ _ _ E2).
    assert (E3 : on_reply Out A w2 e (a_controller A) 2 (ROk None) = Ok (judged A w e s id p pl total v, follow_up A id p v)).
    { unfold on_reply. rewrite N.eqb_refl. unfold ctl_reply. cbn [N.eqb Pos.eqb].
      change (ct_executing (w_ctl w2)) with (Some id). cbn [ok_or bind].
      rewrite (resolve_follows _ A att _ _ _ p (with_status pl v)).
      - reflexivity.
      - exact HC.
      - unfold ctl_poll. change (co_components (ctl_oracle_of Out A w2)) with (co_components (ctl_oracle_of Out A w)). rewrite HC. cbn [bind].
        cbn [co_poll ctl_oracle_of c_governance wiring_of]. unfold gov_at. rewrite N.eqb_refl. cbn [bind]. unfold query_poll.
        change (g_polls (w_gov w2)) with (oset (g_polls (w_gov w)) id (with_status pl v)). rewrite oget_oset_eq. reflexivity.
      - exact Hp.
      - intros t. cbn [with_status p_status]. rewrite EV. apply final_status_not_in_progress. }
    rewrite E3. cbn [bind]. destruct (go Out A (S (S n)) (judged A w e s id p pl total v) e (JSubs (a_controller A) (follow_up A id p v))) as [[w3 d3]|x]; [|reflexivity].
    cbn [bind]. rewrite go_none. reflexivity. }
  split.
  - intros (n & d & H). apply (go_more Out A n (S (S (S (S n))))) in H; [|discriminate|lia].
    unfold ask_resolution in H. rewrite go_call, HF in H. cbn [bind] in H. apply bind_ok in H. destruct H as ([[w1 subs] d1] & H1 & H).
    apply (ask_handled _ _ _ _ _ _ _ _ W) in H1. destruct H1 as (p & pl & total & Q1 & Q2 & Q3 & Q4 & Q5 & Q6 & Q7 & -> & -> & ->).
    apply bind_ok in H. destruct H as ([w2 d2] & H2 & H). injection H as -> <-.
    assert (HE : e_time e < p_ends_at pl -> may_be_early w p /\ clear_cut (final_status pl total)).
    { pose proof H2 as H3. apply (go_cons Out A) in H3. destruct H3 as (k & EK & [(w3 & d3 & E & _)|(i & _ & _ & _ & _ & _ & H3 & _)]); [|discriminate H3].
      injection EK as <-. cbn [sm_msg] in E.
      unfold ending in E. rewrite go_call, HF in E. cbn [bind] in E. unfold handle in E. rewrite (proj2 (N.eqb_neq _ _)) in E by (apply gov_not_ctl; exact HA).
      rewrite N.eqb_refl in E. cbn [w_gov set_ext note started set_ctl] in E.
      destruct (gov_execute (w_gov w) e (a_controller A) (GEndPoll id total false (early_flag w p))) as [[g r]|x] eqn:EG; [|discriminate].
      apply (end_iff w e id total p pl g r W Q5) in EG. exact (proj1 EG). }
    exists p, pl, total, (final_status pl total).
    split; [split; try assumption; intros L; exact (proj1 (HE L))|]. split; [reflexivity|]. split; [intros L; exact (proj2 (HE L))|].
    rewrite (R n p pl total _ Q2 Q5 eq_refl HE) in H2. apply bind_ok in H2. destruct H2 as ([w3 d3] & H2 & H3). injection H3 as -> <-.
    apply (follow_concluded Out A). { intros t. apply final_status_not_in_progress. }
    exists (S (S n)). rewrite H2. f_equal. f_equal. exact (subs_data _ _ _ _ _ _ _ _ _ _ H2).
  - intros (p & pl & total & v & [Q1 Q2 Q3 Q4 Q5 Q6 Q7 Q8] & EV & HC2 & H).
    apply (follow_concluded Out A) in H; [|intros t; rewrite EV; apply final_status_not_in_progress]. destruct H as (n & H).
    exists (S (S (S (S n)))), None. unfold ask_resolution. rewrite go_call, HF. cbn [bind].
    match goal with |- context [handle ?a ?b ?c ?d ?e ?f ?g ?h ?i] => assert (HH : handle a b c d e f g h i =
      Ok (started w s id, [mk_sub (ending id total (early_flag w p)) (ReplySuccess 2)], None)) end.
    { apply (ask_handled _ _ _ _ _ _ _ _ W). exists p, pl, total. auto 12. }
    rewrite HH. cbn [bind]. rewrite (R n p pl total v Q2 Q5 EV (fun L => conj (Q8 L) (HC2 L))).
    rewrite (go_more Out A n (S (S n)) _ _ _ _ H) by (discriminate || lia). reflexivity.
Qed.

End Ripe.

(** * For every history of a DAO *)

Lemma executable_exact X (Out : outside X) A w0 ts w e s id w' :
  new_dao A w0 -> free_calls Out -> w = world_run Out A w0 ts -> lasting w ->
  (exists gas d, go Out A gas w e (JMsg s (ask_resolution A id)) = Ok (w', d)) <->
  exists p pl total v, ripe Out A w e s id p pl total /\ v = final_status pl total /\ (e_time e < p_ends_at pl -> clear_cut v) /\
    concluded Out A e id (handed A p v) v (judged A w e s id p pl total v) w'.
Proof. intros N F -> L. apply ripe_exact; [exact (nd_addrs _ _ N)|exact F|apply run_wired; assumption]. Qed.

(** in a calm history the verdict is the one of the rule *)
Lemma ruled_final X (Out : outside X) A w0 ts w id pl total v :
  new_dao A w0 -> timely 0 ts -> w = world_run Out A w0 ts -> lasting w -> calm A w ->
  oget (g_polls (w_gov w)) id = Some pl -> share_fits (turnout (w_gov w) id) total ->
  ruled (w_gov w) id pl total v <-> v = final_status pl total.
Proof.
  intros N T -> L C Hpl HF. destruct (run_facts X Out A w0 ts N T L C) as (K & _). set (w := world_run Out A w0 ts) in *.
  destruct (sum_fits _ _ _ HF) as (F1 & F2). destruct (inv_sum4 (w_gov w) id pl (c_ginv _ _ _ K) Hpl F1) as (Q1 & Q2 & Q3).
  assert (R : ruled (w_gov w) id pl total (final_status pl total)).
  { unfold ruled. rewrite <- !Q2. apply final_status_verdict; [exact Q1|rewrite Q3; exact F1|rewrite Q3; exact F2]. }
  split; [intros H; exact (rule_functional _ _ _ _ _ _ _ _ _ _ H R)|intros ->; exact R].
Qed.

Lemma executable_by_rule X (Out : outside X) A w0 ts w e s id w' :
  new_dao A w0 -> free_calls Out -> timely 0 ts -> w = world_run Out A w0 ts -> lasting w -> calm A w ->
  (forall p pl total, ripe Out A w e s id p pl total -> share_fits (turnout (w_gov w) id) total) ->
  (exists gas d, go Out A gas w e (JMsg s (ask_resolution A id)) = Ok (w', d)) <->
  exists p pl total v, ripe Out A w e s id p pl total /\ ruled (w_gov w) id pl total v /\ (e_time e < p_ends_at pl -> clear_cut v) /\
    concluded Out A e id (handed A p v) v (judged A w e s id p pl total v) w'.
Proof.
  intros N F T EW L C HS. rewrite (executable_exact X Out A w0 ts w e s id w' N F EW L).
  split; intros (p & pl & total & v & R & HV & H); exists p, pl, total, v; (split; [exact R|]); (split; [|exact H]);
    apply (ruled_final X Out A w0 ts w id pl total v N T EW L C (rp_poll _ _ _ _ _ _ _ _ _ R) (HS _ _ _ R)); exact HV.
Qed.

(** before the end, the share of the votes on general proposals can always be computed *)
Lemma early_fits X (Out : outside X) A w0 ts w e s id p pl total :
  new_dao A w0 -> timely 0 ts -> w = world_run Out A w0 ts -> lasting w -> calm A w -> last_time ts <= e_time e ->
  ripe Out A w e s id p pl total -> pi_type p = General -> e_time e < p_ends_at pl ->
  turnout (w_gov w) id <= total /\ share_fits (turnout (w_gov w) id) total.
Proof.
  intros N T -> L C HL [Q1 Q2 Q3 Q4 Q5 Q6 Q7 Q8] TY LT. set (w := world_run Out A w0 ts) in *.
  destruct (run_facts X Out A w0 ts N T L C) as (K & _). fold w in K.
  destruct (executed_iff_ended X Out A w0 ts id p N T L C Q2) as (pl' & Hpl' & HI). fold w in Hpl'. assert (pl' = pl) by congruence. subst pl'.
  assert (HO : exists t, p_status pl = InProgress t).
  { destruct (p_status pl) as [t| |] eqn:E; [eauto| |]; exfalso; apply (proj1 HI) in Q3; destruct Q3 as (t & Q3); congruence. }
  destruct HO as (t & HO). destruct (c_ginv _ _ _ K) as (Hq & _). destruct (Hq _ _ Q5) as (_ & _ & H3 & _). pose proof (H3 _ HO) as HE.
  destruct (votes_below_total X Out A w0 ts (e_time e) id pl N T L C HL) as (B & _); [|exact Q5|].
  { exists p, pl, t. repeat (split; [assumption|]). lia. }
  fold w in B. rewrite TY in Q6. unfold counting, weight_now in Q6. rewrite (proj2 (N.leb_gt _ _) LT) in Q6. rewrite Q6.
  destruct (c_small _ _ _ K) as (_ & HT). change (total_weight (members_of (w_member w))) with (total_now (w_member w)) in HT.
  split; [exact B|]. unfold turnout. split; [change (2 ^ 128) with M128; lia|]. exact (turnout_fits _ _ B).
Qed.
