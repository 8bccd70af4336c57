(** C70: within the history of a DAO each contract has a history of its own, so that what is proved of all histories of a
    single contract holds of that contract within the DAO. *)
From Verif Require Import Base OMap OMapLemmas Assets PollModel PollSpec FundsModel FundsSpec MemberModel MemberSpec Msgs ControllerModel
  ControllerSpec TreasuryModel TreasurySpec EnterpriseModel EnterpriseSpec OutpostsModel OutpostsSpec WorldModel WorldSpec WorldExamples LiftSpec LiftFacts LiftCases.

(** C70: the governance contract, *)
Theorem C70_governance : forall X (Out : outside X) A w0 ts w,
  new_dao A w0 -> w = world_run Out A w0 ts ->
  exists css, during gc_env ts css /\ w_gov w = gov_run (w_gov w0) (concat css) /\
    map (fun c => (gc_sender c, ToGovernance (gc_msg c))) (concat css) = map ignoring_coins (received (a_governance A) w).
Proof. exact governance_history. Qed.
Print Assumptions C70_governance.

Example C70_nonvacuous : new_dao dao_at (dao false) /\
  map ignoring_coins (received (a_governance dao_at) (world_run idle dao_at (dao false) usual)) =
    map (fun m => (3, ToGovernance m))
      [GUpdateVotes 11 60; GUpdateVotes 12 40; GCreatePoll (mk_create 11 0 (1100 * NANOS) (percent 30) (percent 50) None); GCastVote 1 Yes 11 60;
       GCastVote 1 No 12 40; GUpdateVotes 12 45; GEndPoll 1 105 false false] /\
  map ignoring_coins (received (a_membership dao_at) (world_run idle dao_at (dao false) usual)) =
    [(11, ToMembership (DenomMsg (DStake None))); (12, ToMembership (DenomMsg (DStake None))); (12, ToMembership (DenomMsg (DStake None)))].
Proof. exact received_case. Qed.

(** ... the membership contract, *)
Theorem C70_membership : forall X (Out : outside X) A w0 ts w,
  new_dao A w0 -> w = world_run Out A w0 ts ->
  exists css, during mc_env ts css /\ w_member w = member_run (w_member w0) (concat css) /\
    map (fun c => (mc_sender c, ToMembership (mc_msg c), mc_coins c)) (concat css) = received (a_membership A) w.
Proof. exact membership_history. Qed.
Print Assumptions C70_membership.

(** ... the council membership contract, *)
Theorem C70_council : forall X (Out : outside X) A w0 ts w,
  new_dao A w0 -> w = world_run Out A w0 ts ->
  exists css, during mc_env ts css /\ w_council w = member_run (w_council w0) (concat css) /\
    map (fun c => (mc_sender c, ToMembership (mc_msg c), mc_coins c)) (concat css) = received (a_council A) w.
Proof. exact council_history. Qed.
Print Assumptions C70_council.

(** ... the funds distributor, *)
Theorem C70_funds : forall X (Out : outside X) A w0 ts w,
  new_dao A w0 -> w = world_run Out A w0 ts ->
  exists cs, w_funds w = b_funds (books_run (w_funds w0) cs) /\
    map (fun c => (fc_sender c, ToFunds (fc_msg c), fc_coins c)) cs = received (a_funds A) w.
Proof. exact funds_history. Qed.
Print Assumptions C70_funds.

(** ... the treasury, *)
Theorem C70_treasury : forall X (Out : outside X) A w0 ts w,
  new_dao A w0 -> w = world_run Out A w0 ts ->
  exists cs, w_treasury w = fst (treasury_run (w_treasury w0) cs) /\
    map (fun c => (tc_sender c, ToTreasury (tc_msg c))) cs = map ignoring_coins (received (a_treasury A) w).
Proof. exact treasury_history. Qed.
Print Assumptions C70_treasury.

(** ... the outposts contract, *)
Theorem C70_outposts : forall X (Out : outside X) A w0 ts w,
  new_dao A w0 -> w = world_run Out A w0 ts ->
  exists css, during oc_env ts css /\ w_outposts w = op_run (w_outposts w0) (concat css) /\
    map (fun c => (oc_sender c, ToOutposts (oc_msg c))) (concat css) = map ignoring_coins (received (a_outposts A) w).
Proof. exact outposts_history. Qed.
Print Assumptions C70_outposts.

(** ... the controller (which also gets replies) *)
Theorem C70_controller : forall X (Out : outside X) A w0 ts w,
  new_dao A w0 -> w = world_run Out A w0 ts ->
  exists css, during cc_env ts css /\ w_ctl w = ctl_run (a_controller A) (w_ctl w0) (concat css) /\
    flat_map ctl_calls (concat css) = received (a_controller A) w.
Proof. exact controller_history. Qed.
Print Assumptions C70_controller.

(** ... and the enterprise contract. *)
Theorem C70_enterprise : forall X (Out : outside X) A w0 ts w,
  new_dao A w0 -> w = world_run Out A w0 ts ->
  exists cs, w_enterprise w = en_run (w_enterprise w0) cs /\ flat_map en_calls cs = map ignoring_coins (received (a_enterprise A) w).
Proof. exact enterprise_history. Qed.
Print Assumptions C70_enterprise.
