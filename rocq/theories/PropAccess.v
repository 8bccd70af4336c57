(** C101: who may tell the contracts of a DAO what. *)
From Verif Require Import Base OMap OMapLemmas Assets PollModel PollSpec FundsModel MemberModel MemberSpec Msgs ControllerModel ControllerSpec
  TreasuryModel EnterpriseModel OutpostsModel WorldModel WorldSpec WorldExamples LedgerSpec LedgerExamples
  LiveSpec PurseSpec PurseCases OrderSpec RecountSpec AccessSpec AccessFacts AccessCases.

(** Whatever was delivered to the contracts of a DAO came from somebody who was entitled to say it at that point, by a table of all their messages. *)
Theorem C101_all_entitled : forall X (Out : outside X) A w0 ts w s m l,
  new_dao A w0 -> in_place A w0 -> w = world_run Out A w0 ts -> sent_after (w_log w) s m l -> entitled Out A w0 l s m.
Proof. exact all_entitled. Qed.
Print Assumptions C101_all_entitled.

(** In particular, everybody who voted had votes then, counted from the messages delivered before. *)
Theorem C101_voters_have_weight : forall X (Out : outside X) A w0 ts w u id o coins l,
  new_dao A w0 -> in_place A w0 -> w = world_run Out A w0 ts ->
  (sent_after (w_log w) u (WasmExecute (a_controller A) (ToController (CCastVote id o)) coins) l ->
    recount (a_membership A) u (weight_of (w_member w0) u) l <> 0) /\
  (sent_after (w_log w) u (WasmExecute (a_controller A) (ToController (CCastCouncilVote id o)) coins) l ->
    recount (a_council A) u (weight_of (w_council w0) u) l <> 0).
Proof. exact voters_have_weight. Qed.
Print Assumptions C101_voters_have_weight.

Example C101_access_nonvacuous : new_dao dao_at (purse_dao false) /\ in_place dao_at (purse_dao false) /\
  (exists l, sent_after (w_log spent) 11 (WasmExecute 3 (ToController (CCastVote 1 Yes)) []) l /\ recount 7 11 (weight_of (w_member (purse_dao false)) 11) l = 60) /\
  (exists l, sent_after (w_log spent) 3 (WasmExecute 4 (ToTreasury (TrSpend 99 [(Native 70, 10); (Cw20 80, 5)])) []) l /\ treasurer dao_at l = 3) /\
  world_tx chain dao_at spent (to_ctl 2000 13 [] (CCastVote 1 Yes)) = Err EUnauthorized /\
  world_tx chain dao_at spent (mk_tx 60 (clock 2000) 11 (WasmExecute 4 (ToTreasury (TrSpend 99 [(Native 70, 10)])) [])) = Err EUnauthorized /\
  world_tx chain dao_at spent (mk_tx 60 (clock 2000) 11 (WasmExecute 2 (ToGovernance (GCastVote 1 Yes 11 1000)) [])) = Err EUnauthorized.
Proof. exact spent_access. Qed.

(** Accounts that never sign the text of the DAO neither propose, vote, execute, claim rewards nor are given stakes. *)
Theorem C101_unsigned_kept_out : forall X (Out : outside X) A w0 ts w u s m,
  new_dao A w0 -> in_place A w0 -> w = world_run Out A w0 ts -> has_text w0 -> text_kept A w -> never_signs Out u ->
  In (s, m) (w_log w) -> ~ kept_from A u s m.
Proof. exact unsigned_kept_out. Qed.
Print Assumptions C101_unsigned_kept_out.

(** So, where votes come from staking, they never have any. *)
Theorem C101_unsigned_weightless : forall X (Out : outside X) A w0 ts w u,
  new_dao A w0 -> in_place A w0 -> w = world_run Out A w0 ts -> has_text w0 -> text_kept A w -> never_signs Out u ->
  (forall q, w_member w0 <> MMultisig q) -> weight_of (w_member w) u = 0.
Proof. exact unsigned_weightless. Qed.
Print Assumptions C101_unsigned_weightless.

Example C101_text_nonvacuous : new_dao dao_at text_dao /\ in_place dao_at text_dao /\ has_text text_dao /\ text_kept dao_at text_world /\ never_signs idle 666 /\
  (forall q, w_member text_dao <> MMultisig q) /\
  weight_of (w_member text_world) 11 = 60 /\ weight_of (w_member text_world) 12 = 45 /\ weight_of (w_member text_world) 666 = 0 /\
  f_min (w_funds text_world) = 5 /\
  world_tx idle dao_at text_dao (stake 70 666 50) = Err ERestricted /\ world_tx idle dao_at text_dao (stake_for 71 11 666 5) = Err ERestricted /\
  is_ok (world_tx idle dao_at text_dao (stake 70 11 50)) = true.
Proof. exact text_case. Qed.

(** Unless the text is dropped on the way. *)
Theorem C101_dropped_text_refuted : exists X (Out : outside X) A w0 ts u, let w := world_run Out A w0 ts in
  new_dao A w0 /\ in_place A w0 /\ has_text w0 /\ never_signs Out u /\ (forall q, w_member w0 <> MMultisig q) /\
  ~ text_kept A w /\ weight_of (w_member w) u = 50.
Proof. exact dropped_text. Qed.
Print Assumptions C101_dropped_text_refuted.
