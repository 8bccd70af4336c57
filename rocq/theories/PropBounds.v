(** C100: the council stays within its bounds, whatever happens. *)
From Verif Require Import Base OMap OMapLemmas Assets PollModel PollSpec FundsModel MemberModel MemberSpec Msgs ControllerModel ControllerSpec
  TreasuryModel EnterpriseModel OutpostsModel OutpostsExamples WorldModel WorldSpec WorldExamples FacadeSpec LedgerSpec LedgerExamples PurseSpec PurseCases
  RuleSpec RuleCases OrderSpec AbroadSpec AbroadCases BoundsSpec BoundsFacts BoundsCases.

(** A proposal of the council does nothing but rename, list assets and collections, upgrade, and deploy treasuries. *)
Theorem C100_council_actions : forall X (Out : outside X) A w0 ts w id p,
  new_dao A w0 -> w = world_run Out A w0 ts -> oget (ct_proposals (w_ctl w)) id = Some p -> pi_type p = Council ->
  Forall open_to_council (pi_actions p).
Proof. exact council_actions. Qed.
Print Assumptions C100_council_actions.

Example C100_beyond_nonvacuous : let w := world_run chain dao_at (purse_dao false) stakes in
  is_ok (world_tx chain dao_at w (to_ctl 100 21 [] (CCreateCouncilProposal [PUpdateMetadata renamed]))) = true /\
  world_tx chain dao_at w (to_ctl 100 21 [] (CCreateCouncilProposal [PUpdateMinimumWeight 5])) = Err EUnsupportedCouncilAction /\
  world_tx chain dao_at w (to_ctl 100 21 [] (CCreateCouncilProposal [PRequestFunding None 99 [(Native 70, 10)]])) = Err EUnsupportedCouncilAction.
Proof. exact beyond_case. Qed.

(** The rules of voting, the council itself, what rewards take, the unstaking period, the members and so on change by general proposals only. *)
Theorem C100_members_settings : forall (X : Type) (Out : outside X) A w0 ts1 ts2 w w' k,
  new_dao A w0 -> w = world_run Out A w0 ts1 -> w' = world_run Out A w ts2 -> lasting w' -> in_charge A k w -> for_members k ->
  unchanged k w w' \/
  exists id p a, ran_since A w w' id /\ oget (ct_proposals (w_ctl w')) id = Some p /\ pi_type p = General /\ In a (pi_actions p) /\ concerns A k a = true.
Proof. exact members_settings. Qed.
Print Assumptions C100_members_settings.

Example C100_settings_nonvacuous : for_members OfMinimum /\ in_charge dao_at OfMinimum old_ways /\ lasting new_ways /\ ~ unchanged OfMinimum old_ways new_ways /\
  option_map pi_type (oget (ct_proposals (w_ctl new_ways)) 1) = Some General.
Proof. exact reform_general. Qed.

(** What the treasury sends was ordered by general proposals. *)
Theorem C100_treasury_by_members : forall (X : Type) (Out : outside X) A w0 ts w m,
  new_dao A w0 -> new_treasury A w0 -> w = world_run Out A w0 ts -> lasting w -> treasury_kept A w -> In m (sent_by (a_treasury A) w) ->
  exists id p, In id (runs A w) /\ oget (ct_proposals (w_ctl w)) id = Some p /\ pi_type p = General /\ In m (orders A p).
Proof. exact treasury_by_members. Qed.
Print Assumptions C100_treasury_by_members.

(** So were orders to treasuries on other chains, except for listing assets and collections. *)
Theorem C100_abroad_by_members : forall (X : Type) (Out : outside X) A w0 ts w sp sc d n receiver deadline t tm cs report before,
  new_dao A w0 -> outposts_instantiate (a_enterprise A) = Ok (w_outposts w0) -> w = world_run Out A w0 ts -> N.of_nat (length (w_log w)) < 2 ^ 64 ->
  sent_after (w_log w) (a_outposts A) (IbcTransfer sp sc d n receiver deadline (WasmExecute t (ToTreasury tm) cs) report) before ->
  lists_only tm \/ exists id p, In id (ran A before) /\ oget (ct_proposals (w_ctl w)) id = Some p /\ pi_type p = General.
Proof. exact abroad_by_members. Qed.
Print Assumptions C100_abroad_by_members.

Example C100_abroad_nonvacuous : lasting abroad /\ ~ lists_only (TrSpend 99 [(Native 7, 5)]) /\ option_map pi_type (oget (ct_proposals (w_ctl abroad)) 2) = Some General /\
  funding = parcel to_juno 9001 3300000000000 (WasmExecute 9002 (ToTreasury (TrSpend 99 [(Native 7, 5)])) []) None /\
  exists l, sent_after (w_log abroad) 5 funding ((3, to_outposts dao_at (OpExecute (TrSpend 99 [(Native 7, 5)]) to_juno) []) :: l).
Proof. exact voyage_general. Qed.

(** As long as only proposals of the council are run, those settings stay as they are. *)
Theorem C100_council_leaves : forall (X : Type) (Out : outside X) A w0 ts1 ts2 w w' k,
  new_dao A w0 -> w = world_run Out A w0 ts1 -> w' = world_run Out A w ts2 -> lasting w' -> in_charge A k w -> for_members k -> council_rules A w w' ->
  unchanged k w w'.
Proof. exact council_leaves. Qed.
Print Assumptions C100_council_leaves.

(** And the treasury sends nothing. *)
Theorem C100_council_spends_nothing : forall (X : Type) (Out : outside X) A w0 ts1 ts2 w w',
  new_dao A w0 -> new_treasury A w0 -> w = world_run Out A w0 ts1 -> w' = world_run Out A w ts2 -> lasting w' -> treasury_kept A w' -> council_rules A w w' ->
  sent_by (a_treasury A) w' = sent_by (a_treasury A) w.
Proof. exact council_spends_nothing. Qed.
Print Assumptions C100_council_spends_nothing.

Example C100_council_nonvacuous : new_dao dao_at (purse_dao false) /\ new_treasury dao_at (purse_dao false) /\ lasting council_done /\ treasury_kept dao_at council_done /\
  council_rules dao_at spent council_done /\ (forall k, in_charge dao_at k spent) /\
  option_map pi_type (oget (ct_proposals (w_ctl council_done)) 3) = Some Council /\
  option_map pi_actions (oget (ct_proposals (w_ctl council_done)) 3) = Some [PUpdateMetadata renamed] /\
  runs dao_at spent = [1] /\ runs dao_at council_done = [3; 1] /\ length (sent_by 4 council_done) = length (sent_by 4 spent) /\ sent_by 4 spent <> [] /\
  md_name (en_metadata (w_enterprise spent)) = 100 /\ md_name (en_metadata (w_enterprise council_done)) = 13.
Proof. exact turn_case. Qed.
