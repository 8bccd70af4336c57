(** C84: settings change only by proposals about them. *)
From Verif Require Import Base OMap OMapLemmas Assets PollModel FundsModel FundsSpec MemberModel MemberSpec Msgs ControllerModel ControllerSpec
  TreasuryModel EnterpriseModel OutpostsModel FactoryModel FactorySpec FactoryExamples WorldModel WorldSpec WorldExamples CreationModel CreationFacts CreationCases
  FacadeSpec LedgerSpec LedgerExamples PurseSpec PurseFacts PurseCases RewardCases ExitCases RuleSpec RuleFacts RuleCases.

(** From any moment of the history of a DAO to any later one, each setting is as it was, or the actions of a proposal about it were run in between. *)
Theorem C84_settings_by_proposals : forall (X : Type) (Out : outside X) A w0 ts1 ts2 w w' k,
  new_dao A w0 -> w = world_run Out A w0 ts1 -> w' = world_run Out A w ts2 -> lasting w' -> in_charge A k w ->
  unchanged k w w' \/ touched A k w w'.
Proof. exact settings_by_proposals. Qed.
Print Assumptions C84_settings_by_proposals.

Example C84_settings_nonvacuous : new_dao dao_at (purse_dao false) /\ lasting new_ways /\ timely 0 (before_reform ++ during_reform) /\ calm dao_at new_ways /\
  (forall k, in_charge dao_at k old_ways) /\ runs dao_at old_ways = [] /\ runs dao_at new_ways = [1] /\
  option_map pi_actions (oget (ct_proposals (w_ctl new_ways)) 1) = Some reform /\
  map (fun k => any_concerns dao_at k reform) [OfMetadata; OfMinimum; OfAssets] = [true; true; true] /\
  map (fun k => any_concerns dao_at k reform) [OfRegistry; OfVersion; OfAttestation; OfRules; OfCouncil; OfNfts; OfPeriod; OfHooks; OfMembers]
    = [false; false; false; false; false; false; false; false; false] /\
  md_name (en_metadata (w_enterprise old_ways)) = 100 /\ md_name (en_metadata (w_enterprise new_ways)) = 13 /\
  f_min (w_funds old_ways) = 0 /\ f_min (w_funds new_ways) = 5 /\
  ohas (tr_natives (w_treasury old_ways)) 71 = false /\ ohas (tr_natives (w_treasury new_ways)) 71 = true.
Proof. exact reform_case. Qed.

(** The same for the transaction in which the DAO upgrades itself. *)
Theorem C84_at_upgrade : forall (X : Type) (Out : outside X) A w0 ts w t w' k,
  new_dao A w0 -> w = world_run Out A w0 ts -> lasting w -> w' = world_step Out A w t -> N.of_nat (length (w_log w')) < 2 ^ 64 -> in_charge A k w ->
  unchanged k w w' \/ touched A k w w'.
Proof. exact settings_at_upgrade. Qed.
Print Assumptions C84_at_upgrade.

Example C84_at_upgrade_nonvacuous : lasting version_one /\ N.of_nat (length (w_log version_next)) < 2 ^ 64 /\ w_upgraded version_next = true /\
  en_version (w_enterprise version_one) = version 1 0 0 /\ en_version (w_enterprise version_next) = version 1 1 0 /\
  concerns dao_at OfVersion (PUpgradeDao (version 1 1 0) []) = true /\ concerns dao_at OfRules (PUpgradeDao (version 1 1 0) []) = false.
Proof. exact upgrade_case. Qed.

(** If no proposal that was run calls the DAO with messages of choice, the proposal about the changed setting had passed. *)
Theorem C84_voted : forall (X : Type) (Out : outside X) A w0 ts1 ts2 w w' k,
  new_dao A w0 -> w = world_run Out A w0 ts1 -> w' = world_run Out A w ts2 -> lasting w' -> in_charge A k w ->
  timely 0 (ts1 ++ ts2) -> calm A w' ->
  unchanged k w w' \/
  exists id p a pl b o n, ran_since A w w' id /\ oget (ct_proposals (w_ctl w')) id = Some p /\ In a (pi_actions p) /\ concerns A k a = true /\
    pi_executed_at p = Some b /\ oget (g_polls (w_gov w')) id = Some pl /\ p_status pl = Passed o n.
Proof. exact settings_voted. Qed.
Print Assumptions C84_voted.

(** The contracts that keep settings take the controller's orders forever, except the treasury, *)
Theorem C84_charge_lasts : forall (X : Type) (Out : outside X) A w ts k,
  NoDup (dao_addrs A) -> in_charge A k w -> k <> OfAssets -> k <> OfNfts -> in_charge A k (world_run Out A w ts).
Proof. exact charge_lasts. Qed.
Print Assumptions C84_charge_lasts.

Example C84_charge_nonvacuous : NoDup (dao_addrs dao_at) /\ (forall k, in_charge dao_at k (purse_dao false)) /\ treasury_kept dao_at new_ways /\
  match w_council (purse_dao false) with MMultisig m => query_user_weight m 21 = Ok 1 | _ => False end.
Proof. exact charge_case. Qed.

(** which does until it is given to someone else. *)
Theorem C84_treasury_charge : forall (X : Type) (Out : outside X) A w0 ts w k,
  new_dao A w0 -> new_treasury A w0 -> w = world_run Out A w0 ts -> N.of_nat (length (w_log w)) < 2 ^ 64 -> treasury_kept A w -> k = OfAssets \/ k = OfNfts ->
  in_charge A k w.
Proof. exact treasury_charge. Qed.
Print Assumptions C84_treasury_charge.

(** All contracts of a DAO created by the factory take the orders of its controller, *)
Theorem C84_created_in_charge : forall (X : Type) (x : X) o s sender m v fresh s' log eo e b,
  fa_tx s (mk_fa_call o sender (FaCreate m v) fresh) = Ok (s', log) -> NoDup fresh -> births_of eo e (fo_self o) log = Ok b ->
  exists d w0, assigned m fresh d /\ dao_of d b x = Some w0 /\ new_dao (addrs_of d) w0 /\ new_treasury (addrs_of d) w0 /\
    forall k, in_charge (addrs_of d) k w0.
Proof. exact created_in_charge. Qed.
Print Assumptions C84_created_in_charge.

(** so about such a DAO nothing has to be assumed. *)
Theorem C84_created : forall (X : Type) (Out : outside X) (x : X) o s sender m v fresh s' log eo e b,
  fa_tx s (mk_fa_call o sender (FaCreate m v) fresh) = Ok (s', log) -> NoDup fresh -> births_of eo e (fo_self o) log = Ok b ->
  exists d w0, assigned m fresh d /\ dao_of d b x = Some w0 /\
    forall ts1 ts2 k, let A := addrs_of d in let w := world_run Out A w0 ts1 in let w' := world_run Out A w ts2 in
      lasting w' -> (k = OfAssets \/ k = OfNfts -> treasury_kept A w) ->
      unchanged k w w' \/ touched A k w w'.
Proof. exact created_settings. Qed.
Print Assumptions C84_created.

Example C84_created_nonvacuous : let A := addrs_of made_token in let w := world_run idle A fresh_start first_stake in
  fresh_token = Some fresh_start /\ lasting w /\ treasury_kept A fresh_start /\ unchanged OfHooks fresh_start w /\ weight_of (w_member w) 61 = 30.
Proof. exact created_settings_case. Qed.

(** False after a proposal has given the treasury to another admin. *)
Theorem C84_handed_over_refuted : exists (w0 : world book) ts1 ts2 w w', new_dao dao_at w0 /\ new_treasury dao_at w0 /\ w = world_run chain dao_at w0 ts1 /\
  w' = world_run chain dao_at w ts2 /\ lasting w' /\ timely 0 (ts1 ++ ts2) /\ calm dao_at w' /\ ~ unchanged OfAssets w w' /\ ~ touched dao_at OfAssets w w'.
Proof. exact stranger_changes. Qed.
Print Assumptions C84_handed_over_refuted.

(** With messages of choice to the controller, a setting can change by a proposal that nobody voted on. *)
Theorem C84_unvoted_refuted : exists (w0 : world book) ts w', new_dao dao_at w0 /\ w' = world_run chain dao_at w0 ts /\ lasting w' /\ timely 0 ts /\
  ~ unchanged OfMetadata w0 w' /\
  ~ exists id p a pl o n, ran_since dao_at w0 w' id /\ oget (ct_proposals (w_ctl w')) id = Some p /\ In a (pi_actions p) /\ concerns dao_at OfMetadata a = true /\
      oget (g_polls (w_gov w')) id = Some pl /\ p_status pl = Passed o n.
Proof. exact coup_unvoted. Qed.
Print Assumptions C84_unvoted_refuted.
