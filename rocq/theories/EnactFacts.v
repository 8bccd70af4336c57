(** Decisions about the rules and the description of a DAO take effect. *)
From Verif Require Import Base OMap OMapLemmas Assets PollModel PollSpec PollProofs PollFacts FundsModel FundsSpec MemberModel MemberSpec Msgs
  ControllerModel ControllerSpec ControllerProofs ControllerFacts TreasuryModel EnterpriseModel OutpostsModel WorldModel WorldSpec WorldProofs WorldRun WorldFacts
  LiftProofs LiftFacts LiveSpec LiveProofs EndSpec RipeSpec RipeFacts PurseSpec OrderSpec SettingSpec BallotSpec RecountSpec MajoritySpec MajorityFacts EnactSpec EnactProofs.

(** * Rules in order *)

Lemma created_fit X (w : world X) e a g council weights treasuries :
  ctl_instantiate e a (en_type (w_enterprise w)) g council weights treasuries = Ok (w_ctl w) -> rules_fit w.
Proof.
  intros H. unfold rules_fit. exact (proj1 (instantiate_config _ _ _ _ _ _ _ _ H)).
Qed.

Lemma instantiate_creating e en t g council infos tr s : ctl_instantiate e en t g council infos tr = Ok s -> ct_creating s = None.
Proof. unfold ctl_instantiate. intros H. repeat (apply bind_ok in H; destruct H as (? & ? & H)). injection H as <-. reflexivity. Qed.

Lemma new_fits X A (w : world X) : new_dao A w -> rules_fit w -> fits A (en_type (w_enterprise w)) w.
Proof.
  intros N R. destruct (new_records A w N) as (E1 & E2). split.
  - split; [exact (nd_enterprise _ _ N)|exact (nd_wiring _ _ N)].
  - exact E1.
  - reflexivity.
  - split; [exact R|]. rewrite E2. split.
    + destruct (nd_controller _ _ N) as (e & t & g & c & tr & H). rewrite (instantiate_creating _ _ _ _ _ _ _ _ H). discriminate.
    + intros id p H. rewrite oget_empty in H. discriminate.
Qed.

Lemma judged_fits X A t (w : world X) e s id p pl total v : fits A t w -> oget (ct_proposals (w_ctl w)) id = Some p ->
  fits A t (judged A w e s id p pl total v) /\
  exists p', oget (ct_proposals (w_ctl (judged A w e s id p pl total v))) id = Some p' /\ pi_actions p' = pi_actions p.
Proof.
  intros [F1 F2 F3 (S1 & S2 & S3)] Hp. split.
  - split; [exact F1|exact F2|exact F3|]. split; [exact S1|]. split; [exact S2|]. intros id' p'. cbn. rewrite oget_oset.
    destruct (id =? id'); [|apply S3]. intros H. injection H as <-. exact (S3 _ _ Hp).
  - eexists. cbn. rewrite oget_oset, N.eqb_refl. split; reflexivity.
Qed.

(** * What follows on a vote that has passed *)

Lemma passed_concludes X (Out : outside X) A t e id dep ab y (w1 w' : world X) p :
  NoDup (dao_addrs A) -> free_calls Out -> fits A t w1 -> oget (ct_proposals (w_ctl w1)) id = Some p -> Forall house (pi_actions p) ->
  concluded Out A e id dep (Passed ab y) w1 w' <-> exists k, go Out A k (enacted A w1 id (pi_actions p)) e (JSubs (a_controller A) dep) = Ok (w', None).
Proof.
  intros HA HF F Hp HH. destruct (actions_take_effect Out A HA t HF w1 e id p F Hp HH) as (k0 & H0). unfold concluded. split.
  - intros (w2 & (k & Hk) & k1 & [(d & H1)|(-> & x & H1 & Hx)]).
    + assert (E : @Ok (world X * option N) (enacted A w1 id (pi_actions p), None) = Ok (w2, d)).
      { rewrite <- (go_more Out A _ (k0 + k1)%nat _ _ _ _ H0 ltac:(discriminate) ltac:(lia)).
        exact (go_more Out A _ (k0 + k1)%nat _ _ _ _ H1 ltac:(discriminate) ltac:(lia)). }
      injection E as -> _. eauto.
    + assert (E : @Ok (world X * option N) (enacted A w1 id (pi_actions p), None) = @Err (world X * option N) x).
      { rewrite <- (go_more Out A _ (k0 + k1)%nat _ _ _ _ H0 ltac:(discriminate) ltac:(lia)).
        apply (go_more Out A _ (k0 + k1)%nat _ _ _ _ H1); [congruence|lia]. }
      discriminate E.
  - intros (k & Hk). exists (enacted A w1 id (pi_actions p)). split; [eauto|]. exists k0. left. eauto.
Qed.

Lemma paid_only X (Out : outside X) A k (w : world X) e self to d n w' o :
  go Out A k w e (JSubs self [mk_sub (BankSend to [(d, n)]) ReplyNever]) = Ok (w', o) ->
  exists x, w' = set_ext (note w self (BankSend to [(d, n)])) x.
Proof.
  intros H. apply go_cons in H. destruct H as (k1 & -> & [(w1 & d1 & H & H2)|(i & _ & _ & _ & _ & _ & H & _)]); [|discriminate H].
  destruct H2 as [(_ & H2)|(i & _ & _ & _ & _ & [H2|H2] & _)]; [|discriminate H2|discriminate H2].
  apply go_nil in H2. destruct H2 as (-> & _). destruct k1 as [|k1]; [discriminate H|]. apply go_msg in H.
  destruct H as [(t & wm & c & _ & _ & _ & _ & H & _)|(_ & H)]; [discriminate H|]. cbn [other_msg sm_msg] in H.
  apply bind_ok in H. destruct H as ([x d2] & _ & H). injection H as <- _. eauto.
Qed.

(** * For every history *)
Section Enact.
Context {X : Type}.
Variable Out : outside X.
Variable A : addrs.
Notation world := (world X).

Lemma run_fits_new (w0 : world) ts : new_dao A w0 -> rules_fit w0 -> fits A (en_type (w_enterprise w0)) (world_run Out A w0 ts).
Proof. intros N R. apply run_fits; [exact (nd_addrs _ _ N)|apply new_fits; assumption]. Qed.
End Enact.

Lemma decision_exact X (Out : outside X) A w0 ts w e s id p pl total ab y w' :
  new_dao A w0 -> rules_fit w0 -> free_calls Out -> w = world_run Out A w0 ts -> lasting w ->
  ripe Out A w e s id p pl total -> final_status pl total = Passed ab y -> Forall house (pi_actions p) ->
  let now := enacted A (judged A w e s id p pl total (Passed ab y)) id (pi_actions p) in
  (exists gas d, go Out A gas w e (JMsg s (ask_resolution A id)) = Ok (w', d)) <->
  exists k, go Out A k now e (JSubs (a_controller A) (handed A p (Passed ab y))) = Ok (w', None).
Proof.
  intros N R F EW L RP HV HH now. rewrite (executable_exact X Out A w0 ts w e s id w' N F EW L).
  pose proof (run_fits_new Out A w0 ts N R) as HW. rewrite <- EW in HW.
  destruct (judged_fits X A _ w e s id p pl total (Passed ab y) HW (rp_proposal _ _ _ _ _ _ _ _ _ RP)) as (F1 & p' & Hp' & Ea).
  pose proof (passed_concludes X Out A _ e id (handed A p (Passed ab y)) ab y _ w' p' (nd_addrs _ _ N) F F1 Hp') as PC. rewrite Ea in PC. specialize (PC HH). fold now in PC.
  split.
  - intros (p2 & pl2 & t2 & v & RP2 & Hv & _ & HC).
    assert (p2 = p) by (pose proof (rp_proposal _ _ _ _ _ _ _ _ _ RP); pose proof (rp_proposal _ _ _ _ _ _ _ _ _ RP2); congruence). subst p2.
    assert (pl2 = pl) by (pose proof (rp_poll _ _ _ _ _ _ _ _ _ RP); pose proof (rp_poll _ _ _ _ _ _ _ _ _ RP2); congruence). subst pl2.
    assert (t2 = total) by (rewrite (rp_total _ _ _ _ _ _ _ _ _ RP), (rp_total _ _ _ _ _ _ _ _ _ RP2); reflexivity). subst t2.
    rewrite HV in Hv. subst v. apply PC. exact HC.
  - intros H. exists p, pl, total, (Passed ab y). split; [exact RP|]. split; [symmetry; exact HV|]. split; [intros _; split; discriminate|]. apply PC. exact H.
Qed.

Lemma handed_none A p v : pi_deposit p = None -> handed A p v = [].
Proof. intros H. unfold handed. rewrite H. reflexivity. Qed.

Lemma decision_takes_effect X (Out : outside X) A w0 ts w e s id p pl total ab y :
  new_dao A w0 -> rules_fit w0 -> free_calls Out -> w = world_run Out A w0 ts -> lasting w ->
  ripe Out A w e s id p pl total -> final_status pl total = Passed ab y -> Forall house (pi_actions p) -> pi_deposit p = None ->
  let now := enacted A (judged A w e s id p pl total (Passed ab y)) id (pi_actions p) in
  (exists gas d, go Out A gas w e (JMsg s (ask_resolution A id)) = Ok (now, d)) /\
  (forall gas w' d, go Out A gas w e (JMsg s (ask_resolution A id)) = Ok (w', d) -> w' = now).
Proof.
  intros N R F EW L RP HV HH HD now.
  pose proof (fun w' => decision_exact X Out A w0 ts w e s id p pl total ab y w' N R F EW L RP HV HH) as DE. cbn zeta in DE. rewrite (handed_none A p _ HD) in DE. fold now in DE.
  split.
  - apply DE. exists 1%nat. reflexivity.
  - intros gas w' d H. destruct (proj1 (DE w') ltac:(eauto)) as (k & Hk). apply go_nil in Hk. exact (proj1 Hk).
Qed.

Lemma decision_with_coins X (Out : outside X) A w0 ts w e s id p pl total ab y who denom n gas w' d :
  new_dao A w0 -> rules_fit w0 -> free_calls Out -> w = world_run Out A w0 ts -> lasting w ->
  ripe Out A w e s id p pl total -> final_status pl total = Passed ab y -> Forall house (pi_actions p) ->
  pi_deposit p = Some (mk_deposit who (DDenom denom n)) ->
  go Out A gas w e (JMsg s (ask_resolution A id)) = Ok (w', d) ->
  exists x, w' = set_ext (note (enacted A (judged A w e s id p pl total (Passed ab y)) id (pi_actions p)) (a_controller A) (BankSend who [(denom, n)])) x.
Proof.
  intros N R F EW L RP HV HH HD H.
  destruct (proj1 (decision_exact X Out A w0 ts w e s id p pl total ab y w' N R F EW L RP HV HH) ltac:(eauto)) as (k & Hk).
  unfold handed in Hk. rewrite HD in Hk. cbn [dp_depositor dp_asset receiver handing] in Hk. destruct (pi_type p); exact (paid_only _ _ _ _ _ _ _ _ _ _ _ _ Hk).
Qed.

Lemma majority_decides X (Out : outside X) A birth w0 before later id ends p pl pl' us e s w'' :
  new_dao A w0 -> rules_fit w0 -> free_calls Out -> created_by birth (w_member w0) -> created_by birth (w_council w0) -> timely birth (before ++ later) ->
  let w := world_run Out A w0 before in let w' := world_run Out A w0 (before ++ later) in
  lasting w -> lasting w' -> calm A w' ->
  closing w General id ends -> oget (g_polls (w_gov w)) id = Some pl -> seconds_before ends before -> all_after ends later ->
  stand_for A w id [Yes] us -> winning w pl us ->
  oget (ct_proposals (w_ctl w')) id = Some p -> pi_executed_at p = None -> oget (g_polls (w_gov w')) id = Some pl' ->
  ends <= e_time e -> restricted_by Out A w' (a_enterprise A) s = Ok false ->
  Forall house (pi_actions p) ->
  let v := Passed 0 (support A w id Yes) in let now := enacted A (judged A w' e s id p pl' (weight_now w General) v) id (pi_actions p) in
  ((exists gas d, go Out A gas w' e (JMsg s (ask_resolution A id)) = Ok (w'', d)) <->
   exists k, go Out A k now e (JSubs (a_controller A) (handed A p v)) = Ok (w'', None)) /\
  ct_config (w_ctl now) = fold_left ruled (pi_actions p) (ct_config (w_ctl w')) /\
  en_metadata (w_enterprise now) = fold_left renamed (renames (pi_actions p)) (en_metadata (w_enterprise w')).
Proof.
  intros HN R HFC B1 B2 HT w w' HLw HL HC HCl Hpl HB HAf HU HW Hp Hx Hpl' He Hr HH v now.
  split; [|split; reflexivity].
  pose proof (majority_executes X Out A birth w0 before later id ends p pl pl' us e s w'' HN HFC B1 B2 HT HLw HL HC HCl Hpl HB HAf HU HW Hp Hx Hpl' He Hr) as ME.
  cbn zeta in ME. fold w w' v in ME.
  destruct (judged_fits X A _ w' e s id p pl' (weight_now w General) v (run_fits_new Out A w0 _ HN R) Hp) as (F1 & p' & Hp' & Ea).
  pose proof (passed_concludes X Out A _ e id (handed A p v) 0 (support A w id Yes) _ w'' p' (nd_addrs _ _ HN) HFC F1 Hp') as PC.
  rewrite Ea in PC. specialize (PC HH). exact (iff_trans ME PC).
Qed.
