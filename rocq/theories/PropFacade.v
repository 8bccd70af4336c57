(** The facade contracts: one DAO behind two addresses (C71), adapted messages (C72, C73), answers (C74, C75), DAOs of the old
    code (C76, C77). *)
From Verif Require Import Base OMap OMapLemmas Assets PollModel PollSpec FundsModel MemberModel MemberSpec Msgs ControllerModel
  ControllerSpec TreasuryModel EnterpriseModel OutpostsModel OutpostsExamples WorldModel WorldSpec WorldExamples FacadeModel FacadeV1Model FacadeSpec
  FacadeProofs FacadeQueries FacadeFacts FacadeCases.

(** C71: the facade serves the DAO at the address of its enterprise contract, *)
Theorem C71_by_enterprise_address : forall X (Out : outside X) A F old registry w0 ts w e,
  new_dao A w0 -> w = world_run Out A w0 ts -> lasting w ->
  (forall q, facade_ask Out A F old w e (a_enterprise A) q = v2_query Out A w e (a_enterprise A) q) /\
  (forall r l, facade_adapt Out A F old registry w e (a_enterprise A) r = Ok l <-> exists l', l = inr l' /\ v2_adapt Out A w e (a_enterprise A) r = Ok l').
Proof. exact by_enterprise_address. Qed.
Print Assumptions C71_by_enterprise_address.

(** ... and just so at that of its treasury, as long as the treasury has kept its admin; *)
Theorem C71_by_treasury_address : forall X (Out : outside X) A F old registry w0 ts w e,
  new_dao A w0 -> w = world_run Out A w0 ts -> lasting w ->
  tr_admin (w_treasury w0) = a_controller A -> treasury_kept A w ->
  (forall q, facade_ask Out A F old w e (a_treasury A) q = facade_ask Out A F old w e (a_enterprise A) q) /\
  (forall r, facade_adapt Out A F old registry w e (a_treasury A) r = facade_adapt Out A F old registry w e (a_enterprise A) r).
Proof. exact by_treasury_address. Qed.
Print Assumptions C71_by_treasury_address.

(** ... at no other address of the DAO; *)
Theorem C71_no_other_address : forall X (Out : outside X) A F old registry (w : world X) e a,
  In a (dao_addrs A) -> a <> a_enterprise A -> a <> a_treasury A ->
  (forall q, is_ok (facade_ask Out A F old w e a q) = false) /\ (forall r, is_ok (facade_adapt Out A F old registry w e a r) = false).
Proof. exact no_other_address. Qed.
Print Assumptions C71_no_other_address.

(** ... a DAO of the old code is served by the other facade. *)
Theorem C71_old_dao_address : forall X (Out : outside X) A F old registry (w : world X) e a,
  ~ In a (dao_addrs A) -> fr_old_info F a = true ->
  (forall q, facade_ask Out A F old w e a q = v1_query e a (old a) q) /\
  (forall r l, facade_adapt Out A F old registry w e a r = Ok l <-> exists l', l = inl l' /\ v1_adapt registry a (old a) r = Ok l').
Proof. exact old_dao_address. Qed.
Print Assumptions C71_old_dao_address.

Example C71_addresses_nonvacuous : new_dao dao_at (dao false) /\ lasting (world_run idle dao_at (dao false) usual) /\ tr_admin (w_treasury (dao false)) = a_controller dao_at /\
  treasury_kept dao_at (world_run idle dao_at (dao false) usual) /\
  facade_ask idle dao_at elsewhere olds (world_run idle dao_at (dao false) usual) (clock 1200) 4 (QMemberInfo 11) = Ok (AnMember (60 * 10 ^ 18 / 105)) /\
  ~ In 500 (dao_addrs dao_at) /\ fr_old_info elsewhere 500 = true.
Proof. exact addresses_case. Qed.

(** ... If the admin is replaced, the address of the treasury does not work any more. *)
Theorem C71_treasury_address_lost_refuted : exists (w0 : world unit) ts w, new_dao dao_at w0 /\ w = world_run idle dao_at w0 ts /\ lasting w /\ tr_admin (w_treasury w0) = a_controller dao_at /\
  is_ok (facade_ask idle dao_at elsewhere olds w (clock 1200) (a_enterprise dao_at) (QMemberInfo 11)) = true /\
  is_ok (facade_ask idle dao_at elsewhere olds w (clock 1200) (a_treasury dao_at) (QMemberInfo 11)) = false.
Proof. exact treasury_address_lost. Qed.
Print Assumptions C71_treasury_address_lost_refuted.

(** C72: adapted messages are exactly those that the request means for a DAO of this type and asset; *)
Theorem C72_adapt_exact : forall X (Out : outside X) A w0 ts w e asset r,
  new_dao A w0 -> w = world_run Out A w0 ts -> lasting w ->
  backed Out w (en_type (w_enterprise w)) asset -> (forall id, r <> AExecute id) ->
  forall l, v2_adapt Out A w e (a_enterprise A) r = Ok l <-> messages A (en_type (w_enterprise w)) asset r = Some l.
Proof. exact adapt_exact. Qed.
Print Assumptions C72_adapt_exact.

(** ... type and asset do not change. *)
Theorem C72_backed_stays : forall X (Out : outside X) A w0 ts w asset,
  new_dao A w0 -> w = world_run Out A w0 ts ->
  backed Out w0 (en_type (w_enterprise w0)) asset -> (forall s p k, w_member w0 = MNft s -> ns_contract s <> NIcs721 p k) ->
  backed Out w (en_type (w_enterprise w)) asset /\ en_type (w_enterprise w) = en_type (w_enterprise w0).
Proof. exact backed_stays. Qed.
Print Assumptions C72_backed_stays.

Example C72_backed_nonvacuous : new_dao dao_at (dao false) /\ lasting (world_run idle dao_at (dao false) usual) /\
  backed idle (dao false) DaoDenom 70 /\ backed idle (world_run idle dao_at (dao false) usual) DaoDenom 70 /\
  messages dao_at DaoDenom 70 (AStake (StDenom 15 8)) = Some [WasmExecute 7 (ToMembership (DenomMsg (DStake (Some 15)))) [(70, 8)]].
Proof. exact backed_case. Qed.

(** ... But requests to unstake are not checked against the type of the DAO. *)
Theorem C72_wrong_unstaking_refuted : exists (w0 : world unit) ts w m, new_dao dao_at w0 /\ w = world_run idle dao_at w0 ts /\ lasting w /\ backed idle w DaoDenom 70 /\
  en_type (w_enterprise w) = DaoDenom /\ v2_adapt idle dao_at w (clock 1200) (a_enterprise dao_at) (AUnstake (UnCw20 5)) = Ok [m] /\
  world_step idle dao_at w (mk_tx 60 (clock 1200) 11 m) = w.
Proof. exact wrong_unstaking. Qed.
Print Assumptions C72_wrong_unstaking_refuted.

(** C73: messages to execute a proposal: one coin for each action abroad, then the call; *)
Theorem C73_execute_exact : forall X (Out : outside X) A w0 ts w e id,
  new_dao A w0 -> w = world_run Out A w0 ts -> lasting w ->
  forall l, v2_adapt Out A w e (a_enterprise A) (AExecute id) = Ok l <->
    exists v p, v2_query Out A w e (a_enterprise A) (QProposal id) = Ok (AnProposal v) /\ oget (ct_proposals (w_ctl w)) id = Some p /\ l = execution A id (pi_actions p).
Proof. exact execute_exact. Qed.
Print Assumptions C73_execute_exact.

(** ... as many coins as the controller makes calls of the outposts contract, *)
Theorem C73_fees_match : forall X (Out : outside X) A w0 ts w e id p l e' coins s' subs,
  new_dao A w0 -> w = world_run Out A w0 ts -> lasting w ->
  oget (ct_proposals (w_ctl w)) id = Some p -> no_own_calls A p ->
  v2_adapt Out A w e (a_enterprise A) (AExecute id) = Ok l ->
  ctl_execute (ctl_oracle_of Out A w) (a_controller A) (w_ctl w) e' (a_controller A) coins (CExecuteActions id) = Ok (s', subs) ->
  l = (if outposts_calls A subs =? 0 then [] else [BankSend (a_outposts A) [(ULUNA, outposts_calls A subs)]]) ++ [call_controller A (CExecuteProposal id)].
Proof. exact fees_match. Qed.
Print Assumptions C73_fees_match.

Example C73_fees_nonvacuous : new_dao dao_at (dao false) /\ let w := world_run idle dao_at (dao false) abroad_plain in lasting w /\
  exists p s' subs, oget (ct_proposals (w_ctl w)) 1 = Some p /\ no_own_calls dao_at p /\
  v2_adapt idle dao_at w (clock 1100) (a_enterprise dao_at) (AExecute 1) = Ok [BankSend 5 [(ULUNA, 2)]; WasmExecute 3 (ToController (CExecuteProposal 1)) []] /\
  ctl_execute (ctl_oracle_of idle dao_at w) (a_controller dao_at) (w_ctl w) (clock 1100) (a_controller dao_at) [] (CExecuteActions 1) = Ok (s', subs) /\ outposts_calls dao_at subs = 2.
Proof. exact abroad_case. Qed.

(** ... each of which sends one coin abroad. *)
Theorem C73_call_sends_one : forall o e s sender m s' subs,
  outposts_execute o e s sender m = Ok (s', subs) -> (forall id c, m <> OpCallback id c) -> sent_abroad ULUNA subs = 1.
Proof. exact call_sends_one. Qed.
Print Assumptions C73_call_sends_one.

Theorem C73_callback_sends : forall o e s sender id c s' subs,
  outposts_execute o e s sender (OpCallback id c) = Ok (s', subs) ->
  exists cb, oget (op_callbacks s) id = Some cb /\ sent_abroad ULUNA subs = match cb_type cb with CbProxy _ => 1 | CbTreasury _ => 0 end.
Proof. exact callback_sends. Qed.
Print Assumptions C73_callback_sends.

(** ... Calls among the proposals own messages are not paid for, nor the second coin of a deployment. *)
Theorem C73_own_calls_unpaid_refuted : exists (w0 : world unit) ts w s' subs, new_dao dao_at w0 /\ w = world_run idle dao_at w0 ts /\ lasting w /\
  v2_adapt idle dao_at w (clock 1100) (a_enterprise dao_at) (AExecute 1) = Ok [BankSend 5 [(ULUNA, 2)]; WasmExecute 3 (ToController (CExecuteProposal 1)) []] /\
  ctl_execute (ctl_oracle_of idle dao_at w) (a_controller dao_at) (w_ctl w) (clock 1100) (a_controller dao_at) [] (CExecuteActions 1) = Ok (s', subs) /\ outposts_calls dao_at subs = 3.
Proof. exact own_calls_unpaid. Qed.
Print Assumptions C73_own_calls_unpaid_refuted.

Theorem C73_deployment_needs_two_refuted : exists s1 out1 s2 out2,
  outposts_execute oo (at_ 1) op0 BOSS (OpDeploy d_juno) = Ok (s1, out1) /\ sent_abroad ULUNA out1 = 1 /\
  outposts_execute oo (at_ 4) s1 (from_proxy to_juno 900) (OpCallback 1 (Some 9001)) = Ok (s2, out2) /\ sent_abroad ULUNA out2 = 1.
Proof. exact deployment_needs_two. Qed.
Print Assumptions C73_deployment_needs_two_refuted.

(** C74: addresses, shares of the votes, stakes. *)
Theorem C74_own_addresses : forall X (Out : outside X) A w0 ts w e,
  new_dao A w0 -> w = world_run Out A w0 ts -> lasting w ->
  v2_query Out A w e (a_enterprise A) QTreasuryAddress = Ok (AnTreasury (a_treasury A)) /\
  exists att, v2_query Out A w e (a_enterprise A) QComponents =
    Ok (AnComponents (en_factory (w_enterprise w)) (Some (en_versioning (w_enterprise w))) (a_enterprise A) (a_funds A) (Some (wiring_of A att))).
Proof. exact own_addresses. Qed.
Print Assumptions C74_own_addresses.

Theorem C74_member_power : forall X (Out : outside X) A w0 ts w e u,
  new_dao A w0 -> w = world_run Out A w0 ts -> lasting w -> u <> 0 ->
  v2_query Out A w e (a_enterprise A) (QMemberInfo u) = Ok (AnMember (share (weight_of (w_member w) u) (total_now (w_member w)))).
Proof. exact member_power. Qed.
Print Assumptions C74_member_power.

Theorem C74_powers_sum : forall X (Out : outside X) A w0 ts w e power us,
  new_dao A w0 -> w = world_run Out A w0 ts -> lasting w ->
  NoDup us -> (forall u, In u us -> v2_query Out A w e (a_enterprise A) (QMemberInfo u) = Ok (AnMember (power u))) -> lsum power us <= 10 ^ 18.
Proof. exact powers_sum. Qed.
Print Assumptions C74_powers_sum.

Theorem C74_stakes_sum : forall X (Out : outside X) A w0 ts w e asset us,
  new_dao A w0 -> w = world_run Out A w0 ts -> lasting w ->
  backed Out w (en_type (w_enterprise w)) asset -> en_type (w_enterprise w) <> DaoMultisig ->
  NoDup us -> ~ In 0 us -> (forall u, weight_of (w_member w) u <> 0 -> In u us) ->
  exists total stake, v2_query Out A w e (a_enterprise A) QTotalStaked = Ok (AnTotal total) /\
    (forall u, In u us -> v2_query Out A w e (a_enterprise A) (QUserStake u None None) = Ok (AnStake (stake u)) /\ staked_of (stake u) = weight_of (w_member w) u) /\
    total = lsum (fun u => staked_of (stake u)) us.
Proof. exact stakes_sum. Qed.
Print Assumptions C74_stakes_sum.

(** C74: answers about proposals and votes agree. *)
Theorem C74_proposal_is_the_stored_one : forall X (Out : outside X) A w0 ts w e id v,
  new_dao A w0 -> w = world_run Out A w0 ts -> lasting w ->
  v2_query Out A w e (a_enterprise A) (QProposal id) = Ok (AnProposal v) ->
  exists p pl, oget (ct_proposals (w_ctl w)) id = Some p /\ oget (g_polls (w_gov w)) id = Some pl /\
    fp_type v = pi_type p /\ fp_actions v = pi_actions p /\ fp_results v = p_results pl /\ fp_expires v = AtTime (p_ends_at pl).
Proof. exact proposal_is_the_stored_one. Qed.
Print Assumptions C74_proposal_is_the_stored_one.

Theorem C74_status_agrees : forall X (Out : outside X) A w0 ts w e id v,
  new_dao A w0 -> w = world_run Out A w0 ts -> lasting w ->
  v2_query Out A w e (a_enterprise A) (QProposal id) = Ok (AnProposal v) ->
  fp_id v = id /\ v2_query Out A w e (a_enterprise A) (QProposalStatus id) = Ok (AnStatus (fp_status v) (fp_expires v) (fp_results v)).
Proof. exact status_agrees. Qed.
Print Assumptions C74_status_agrees.

Theorem C74_list_agrees : forall X (Out : outside X) A w0 ts w e filt start limit l v,
  new_dao A w0 -> w = world_run Out A w0 ts -> lasting w ->
  v2_query Out A w e (a_enterprise A) (QProposals filt start limit) = Ok (AnProposals l) -> In v l ->
  v2_query Out A w e (a_enterprise A) (QProposal (fp_id v)) = Ok (AnProposal v).
Proof. exact list_agrees. Qed.
Print Assumptions C74_list_agrees.

Theorem C74_votes_agree : forall X (Out : outside X) A w0 ts w e id start limit l v,
  new_dao A w0 -> w = world_run Out A w0 ts -> lasting w ->
  v2_query Out A w e (a_enterprise A) (QProposalVotes id start limit) = Ok (AnVotes l) -> In v l ->
  v2_query Out A w e (a_enterprise A) (QMemberVote (v_voter v) id) = Ok (AnVote (Some v)).
Proof. exact votes_agree. Qed.
Print Assumptions C74_votes_agree.

(** C74: answers about claims, and about the migration, agree. *)
Theorem C74_claims_shown : forall X (Out : outside X) A w0 ts w e asset u,
  new_dao A w0 -> w = world_run Out A w0 ts -> lasting w ->
  backed Out w (en_type (w_enterprise w)) asset -> u <> 0 ->
  v2_query Out A w e (a_enterprise A) (QClaims u) = Ok (AnClaims (booked_claims (w_member w) u)).
Proof. exact claims_shown. Qed.
Print Assumptions C74_claims_shown.

Theorem C74_claims_agree : forall X (Out : outside X) A w0 ts w e u l,
  new_dao A w0 -> w = world_run Out A w0 ts -> lasting w ->
  v2_query Out A w e (a_enterprise A) (QClaims u) = Ok (AnClaims l) ->
  v2_query Out A w e (a_enterprise A) (QReleasableClaims u) = Ok (AnClaims (filter (fun c => reached e (snd c)) l)).
Proof. exact claims_agree. Qed.
Print Assumptions C74_claims_agree.

Theorem C74_stage_agrees : forall X (Out : outside X) A w0 ts w e,
  new_dao A w0 -> w = world_run Out A w0 ts -> lasting w ->
  exists b, v2_query Out A w e (a_enterprise A) QHasIncompleteMigration = Ok (AnBool b) /\
  v2_query Out A w e (a_enterprise A) QMigrationStage = Ok (AnStage (if b then StageInProgress else StageCompleted)) /\
  (b = true <-> og_stage (tr_old (w_treasury w)) = Some MigrationInProgress).
Proof. exact stage_agrees. Qed.
Print Assumptions C74_stage_agrees.

Theorem C74_unmoved_shown : forall X (Out : outside X) A w0 ts w e b,
  new_dao A w0 -> w = world_run Out A w0 ts -> lasting w ->
  v2_query Out A w e (a_enterprise A) QHasUnmoved = Ok (AnBool b) -> b = true <-> version 1 0 2 <= en_version (w_enterprise w) /\ left_behind (w_treasury w).
Proof. exact unmoved_shown. Qed.
Print Assumptions C74_unmoved_shown.

Theorem C74_whitelists_shown : forall X (Out : outside X) A w0 ts w e,
  new_dao A w0 -> w = world_run Out A w0 ts -> lasting w ->
  (forall s l, v2_query Out A w e (a_enterprise A) (QAssetWhitelist s l) = (r <- query_asset_whitelist (w_treasury w) s l ;; Ok (AnAssets r))) /\
  (forall s l, v2_query Out A w e (a_enterprise A) (QNftWhitelist s l) = (r <- query_nft_whitelist (w_treasury w) s l ;; Ok (AnNfts r))).
Proof. exact whitelists_shown. Qed.
Print Assumptions C74_whitelists_shown.

Example C74_answers_nonvacuous : new_dao dao_at (dao false) /\ let w := world_run idle dao_at (dao false) asking in lasting w /\ backed idle w (en_type (w_enterprise w)) 70 /\
  (forall u, weight_of (w_member w) u <> 0 -> In u [11; 12]) /\
  let ask := v2_query idle dao_at w (clock 200) (a_enterprise dao_at) in
  ask QTotalStaked = Ok (AnTotal 90) /\ ask (QUserStake 12 None None) = Ok (AnStake (USDenom 30)) /\
  (exists v, ask (QProposal 1) = Ok (AnProposal v) /\ ask (QProposals None None None) = Ok (AnProposals [v])) /\
  (exists v v', ask (QProposalVotes 1 None None) = Ok (AnVotes [v; v']) /\ v_voter v' = 12 /\ v_amount v' = 30) /\
  ask (QClaims 12) = Ok (AnClaims [(CADenom 10, RTimestamp (2120 * NANOS))]) /\
  ask (QReleasableClaims 12) = Ok (AnClaims []) /\ ask QMigrationStage = Ok (AnStage StageCompleted).
Proof. exact answers_case. Qed.

(** C75: [DaoInfo] shows what the contracts hold; of the council, the first hundred members. *)
Theorem C75_dao_info_exact : forall X (Out : outside X) A w0 ts w e i,
  new_dao A w0 -> w = world_run Out A w0 ts -> lasting w ->
  v2_query Out A w e (a_enterprise A) QDaoInfo = Ok (AnInfo i) <->
  fi_creation i = en_creation (w_enterprise w) /\ fi_metadata i = en_metadata (w_enterprise w) /\ fi_type i = en_type (w_enterprise w) /\
  fi_version i = en_version (w_enterprise w) /\ fi_factory i = en_factory (w_enterprise w) /\ fi_funds i = a_funds A /\
  settings_shown (ct_config (w_ctl w)) (fi_gov i) /\ listed Out A w (en_type (w_enterprise w)) (fi_membership i) (fg_unlocking (fi_gov i)) /\
  council_shown (ct_council (w_ctl w)) (firstn 100 (okeys (m_weights (members_of (w_council w))))) (fi_council i) /\
  code_version (en_version (w_enterprise w)) = Ok (fi_code_version i).
Proof. exact dao_info_exact. Qed.
Print Assumptions C75_dao_info_exact.

Example C75_info_nonvacuous : new_dao dao_at (dao false) /\ lasting (world_run idle dao_at (dao false) usual) /\
  exists i, v2_query idle dao_at (world_run idle dao_at (dao false) usual) (clock 1200) (a_enterprise dao_at) QDaoInfo = Ok (AnInfo i) /\
    fi_membership i = 70 /\ fg_veto (fi_gov i) = percent 50 /\ fi_code_version i = 10000 /\ exists k, fi_council i = Some k /\ fk_members k = [21; 22; 23].
Proof. exact info_case. Qed.

Theorem C75_council_cut_off_refuted : exists (w0 : world unit) ts w i k u, new_dao dao_at w0 /\ w = world_run idle dao_at w0 ts /\ lasting w /\
  v2_query idle dao_at w (clock 100) (a_enterprise dao_at) QDaoInfo = Ok (AnInfo i) /\ fi_council i = Some k /\ weight_of (w_council w) u = 1 /\ ~ In u (fk_members k).
Proof. exact council_cut_off. Qed.
Print Assumptions C75_council_cut_off_refuted.

(** C75: the code version is the version, as a number; it tells apart versions with parts below 100 only. *)
Theorem C75_code_version_exact : forall a b c n,
  a < 2 ^ 64 -> b < 2 ^ 64 -> c < 2 ^ 64 ->
  code_version (version a b c) = Ok n <-> n = code_of (a, b, c) /\ n < 2 ^ 64.
Proof. exact code_version_exact. Qed.
Print Assumptions C75_code_version_exact.

Theorem C75_small_codes : forall u v,
  small_version u -> small_version v -> code_of u = code_of v -> u = v.
Proof. exact small_codes. Qed.
Print Assumptions C75_small_codes.

Example C75_codes_nonvacuous : code_version (version 1 2 3) = Ok 10203 /\ small_version (1, 2, 3) /\ small_version (1, 2, 4).
Proof. exact codes_case. Qed.

Theorem C75_codes_collide_refuted : exists n, code_version (version 1 0 100) = Ok n /\ code_version (version 1 1 0) = Ok n /\ version 1 0 100 <> version 1 1 0.
Proof. exact codes_collide. Qed.
Print Assumptions C75_codes_collide_refuted.

(** C76: translation of actions for DAOs of the old code, and back. *)
Theorem C76_map_action_exact : forall registry a o,
  map_action registry a = Ok o <-> translates registry a o.
Proof. exact map_action_exact. Qed.
Print Assumptions C76_map_action_exact.

Theorem C76_translated_plain : forall registry a,
  plain_action a -> exists o, translates registry a o /\ unmap_action o = a.
Proof. exact translated_plain. Qed.
Print Assumptions C76_translated_plain.

(** C76: messages for DAOs of the old code. *)
Theorem C76_old_adapt_exact : forall registry dao d i r l,
  od_info d = Ok i ->
  v1_adapt registry dao d r = Ok l <->
  exists acts, Forall2 (translates registry) (actions_in r) acts /\ old_messages dao (oi_type i) (oi_membership i) acts r = Some l.
Proof. exact old_adapt_exact. Qed.
Print Assumptions C76_old_adapt_exact.

Example C76_translation_nonvacuous : od_info dao_500 = Ok info_500 /\ plain_action (PUpdateMinimumWeight 7) /\
  v1_adapt codes 500 dao_500 (ACreateWithToken [PUpdateMinimumWeight 7; PUpgradeDao (version 1 1 0) []; PExecuteMsgs []] (Some 33) 20) =
    Ok [OldSend20 50 500 20 (Some [OUpdateMinimumWeight 7; OUpgradeDao 7 MIGRATE_TREASURY; OExecuteMsgs []])].
Proof. exact translation_case. Qed.

(** ... Treasuries of other chains, owners of deposits and users to stake for are ignored. *)
Theorem C76_targets_ignored : forall registry t l add remove add' remove' to,
  map_action registry (PRequestFunding t to l) = map_action registry (PRequestFunding None to l) /\
  map_action registry (PUpdateAssets t add remove) = map_action registry (PUpdateAssets None add remove) /\
  map_action registry (PUpdateNfts t add' remove') = map_action registry (PUpdateNfts None add' remove').
Proof. exact targets_ignored. Qed.
Print Assumptions C76_targets_ignored.

Theorem C76_users_ignored : forall registry dao d actions o o' n u u' tokens,
  v1_adapt registry dao d (ACreateWithToken actions o n) = v1_adapt registry dao d (ACreateWithToken actions o' n) /\
  v1_adapt registry dao d (AStake (StCw20 u n)) = v1_adapt registry dao d (AStake (StCw20 u' n)) /\
  v1_adapt registry dao d (AStake (StCw721 u tokens)) = v1_adapt registry dao d (AStake (StCw721 u' tokens)).
Proof. exact users_ignored. Qed.
Print Assumptions C76_users_ignored.

Theorem C76_funding_misdirected_refuted : exists registry t to l o, t <> None /\ map_action registry (PRequestFunding t to l) = Ok o /\ unmap_action o = PRequestFunding None to l.
Proof. exact funding_misdirected. Qed.
Print Assumptions C76_funding_misdirected_refuted.

(** C76: answers about such a DAO. *)
Theorem C76_old_info_shown : forall e dao d i,
  od_info d = Ok i ->
  exists f, v1_query e dao d QDaoInfo = Ok (AnInfo f) /\ v1_query e dao d QComponents = Ok (AnComponents (oi_factory i) None dao (oi_funds i) None) /\
    fi_creation f = oi_creation i /\ fi_metadata f = oi_metadata i /\ fi_council f = oi_council i /\ fi_type f = oi_type i /\ fi_membership f = oi_membership i /\
    fi_factory f = oi_factory i /\ fi_funds f = oi_funds i /\ fi_code_version f = oi_code_version i /\ fi_version f = version 0 (oi_code_version i) 0 /\
    fg_quorum (fi_gov f) = og_quorum (oi_gov i) /\ fg_threshold (fi_gov f) = og_threshold (oi_gov i) /\
    fg_veto (fi_gov f) = match og_veto (oi_gov i) with Some v => v | None => og_threshold (oi_gov i) end /\
    fg_vote_duration (fi_gov f) = og_vote_duration (oi_gov i) /\ fg_unlocking (fi_gov f) = og_unlocking (oi_gov i) /\
    fg_minimum_deposit (fi_gov f) = og_minimum_deposit (oi_gov i) /\ fg_allow_early (fi_gov f) = og_allow_early (oi_gov i).
Proof. exact old_info_shown. Qed.
Print Assumptions C76_old_info_shown.

Theorem C76_old_answers_passed : forall e dao d q,
  match q with
    | QMemberInfo _ | QMultisigMembers _ _ | QAssetWhitelist _ _ | QNftWhitelist _ _ | QMemberVote _ _ | QProposalVotes _ _ _ | QTotalStaked | QStakedNfts _ _ | QClaims _ | QReleasableClaims _ => True
    | _ => False end -> v1_query e dao d q = od_other d q.
Proof. exact old_answers_passed. Qed.
Print Assumptions C76_old_answers_passed.

(** C77: the status shown for a proposal of a DAO of the old code is the verdict on its votes under the settings of the DAO. *)
Theorem C77_old_status_shown : forall e dao d i id p ends,
  od_proposal d id = Ok p -> od_info d = Ok i -> op_expires p = AtTime ends -> real_votes (op_results p) (op_total p) ->
  exists s, v1_query e dao d (QProposal id) =
      Ok (AnProposal (mk_facade_proposal (op_id p) (op_type p) s (op_expires p) (map unmap_action (op_actions p)) (op_results p) (op_total p))) /\
    v1_query e dao d (QProposalStatus id) = Ok (AnStatus s (op_expires p) (op_results p)) /\ shown e (oi_gov i) p ends s.
Proof. exact old_status_shown. Qed.
Print Assumptions C77_old_status_shown.

Theorem C77_shown_once : forall e g p ends s1 s2,
  shown e g p ends s1 -> shown e g p ends s2 -> s1 = s2.
Proof. exact shown_once. Qed.
Print Assumptions C77_shown_once.

Theorem C77_old_list_shown : forall e dao d i f s n l id v,
  od_info d = Ok i -> (forall p, In p l -> exists ends, op_expires p = AtTime ends) ->
  (forall p, In p l -> real_votes (op_results p) (op_total p)) -> (forall p, In p l -> od_proposal d (op_id p) = Ok p) ->
  od_proposals d f s n = Ok l -> fp_id v = id ->
  exists vs, v1_query e dao d (QProposals f s n) = Ok (AnProposals vs) /\ map fp_id vs = map op_id l /\
    (In v vs -> v1_query e dao d (QProposal id) = Ok (AnProposal v)).
Proof. exact old_list_shown. Qed.
Print Assumptions C77_old_list_shown.

Example C77_old_status_nonvacuous : od_proposal dao_500 1 = Ok old_1 /\ od_info dao_500 = Ok info_500 /\ op_expires old_1 = AtTime (1000 * NANOS) /\
  real_votes (op_results old_1) (op_total old_1) /\ exists v, v1_query (clock 1000) 500 dao_500 (QProposal 1) = Ok (AnProposal v) /\ fp_status v = PSPassed.
Proof. exact old_status_case. Qed.

(** ... also for a council proposal, which has settings of its own. *)
Theorem C77_council_misjudged_refuted : exists e dao d i k p v, od_info d = Ok i /\ oi_council i = Some k /\ od_proposal d 2 = Ok p /\ op_type p = Council /\
  judged_by (fk_quorum k) (fk_threshold k) (fk_threshold k) (op_results p) (op_total p) (Passed 0 (votes_on (op_results p) Yes)) /\
  v1_query e dao d (QProposal 2) = Ok (AnProposal v) /\ fp_status v = PSRejected.
Proof. exact council_misjudged. Qed.
Print Assumptions C77_council_misjudged_refuted.
