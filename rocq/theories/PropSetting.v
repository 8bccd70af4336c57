(** C102: settings are what the proposals made them. *)
From Verif Require Import Base OMap OMapLemmas Assets PollModel PollSpec FundsModel MemberModel MemberSpec Msgs ControllerModel ControllerSpec
  TreasuryModel EnterpriseModel OutpostsModel WorldModel WorldSpec WorldExamples LedgerSpec LedgerExamples
  PurseSpec PurseCases RuleCases SettingSpec SettingFacts SettingCases.

(** The rules of voting and the council are exactly what the actions of the proposals that were run make of the first ones, in their order. *)
Theorem C102_rules_as_run : forall (X : Type) (Out : outside X) A w0 ts w,
  new_dao A w0 -> w = world_run Out A w0 ts -> lasting w ->
  (forall id, In id (runs A w) -> exists p, oget (ct_proposals (w_ctl w)) id = Some p) /\
  ct_config (w_ctl w) = fold_left ruled (acts A w) (ct_config (w_ctl w0)) /\
  ct_council (w_ctl w) = fold_left seated (acts A w) (ct_council (w_ctl w0)).
Proof. exact rules_as_run. Qed.
Print Assumptions C102_rules_as_run.

(** So whatever the last action about the council or about the rules said is in force; if there is none, the first ones are. *)
Theorem C102_last_word : forall (X : Type) (Out : outside X) A w0 ts w,
  new_dao A w0 -> w = world_run Out A w0 ts -> lasting w ->
  (forall before c after, acts A w = before ++ PUpdateCouncil c :: after -> existsb about_council after = false ->
     match c with
     | None => ct_council (w_ctl w) = None
     | Some s => exists cc, ct_council (w_ctl w) = Some cc /\ cc_quorum cc = cs_quorum s /\ cc_threshold cc = cs_threshold s /\
         cc_allowed cc = match cs_allowed s with Some l => l | None => [TUpgradeDao] end
     end) /\
  (forall before u after, acts A w = before ++ PUpdateGovConfig u :: after -> existsb about_rules after = false ->
     let g := ct_config (w_ctl w) in
     (forall x, gu_quorum u = Change x -> gc_quorum g = x) /\ (forall x, gu_threshold u = Change x -> gc_threshold g = x) /\
     (forall x, gu_veto_threshold u = Change x -> gc_veto_threshold g = x) /\ (forall x, gu_vote_duration u = Change x -> gc_vote_duration g = x) /\
     (forall x, gu_minimum_deposit u = Change x -> gc_minimum_deposit g = x) /\ (forall x, gu_allow_early u = Change x -> gc_allow_early g = x)) /\
  (existsb about_council (acts A w) = false -> ct_council (w_ctl w) = ct_council (w_ctl w0)) /\
  (existsb about_rules (acts A w) = false -> ct_config (w_ctl w) = ct_config (w_ctl w0)).
Proof. exact last_word. Qed.
Print Assumptions C102_last_word.

Example C102_setting_nonvacuous : new_dao dao_at (purse_dao false) /\ lasting changed_dao /\ runs dao_at changed_dao = [2; 1] /\ acts dao_at changed_dao = first_changes ++ second_changes /\
  gc_quorum (ct_config (w_ctl changed_dao)) = percent 12 /\ gc_veto_threshold (ct_config (w_ctl changed_dao)) = Some (percent 20) /\
  gc_threshold (ct_config (w_ctl changed_dao)) = percent 60 /\ gc_allow_early (ct_config (w_ctl changed_dao)) = true /\
  gc_vote_duration (ct_config (w_ctl changed_dao)) = gc_vote_duration (ct_config (w_ctl (purse_dao false))) /\
  ct_council (w_ctl changed_dao) = Some (mk_council_config [TUpgradeDao] (percent 40) (percent 70)) /\
  ct_council (w_ctl (purse_dao false)) <> ct_council (w_ctl changed_dao).
Proof. exact setting_case. Qed.

(** What the other contracts say about the DAO is what the messages delivered to them make of what they said first: description, version, registry and factory, minimum weight, unstaking period, hooks, assets and collections. *)
Theorem C102_all_as_told : forall (X : Type) (Out : outside X) A w0 ts w,
  new_dao A w0 -> w = world_run Out A w0 ts -> as_told A w0 w.
Proof. exact all_as_told. Qed.
Print Assumptions C102_all_as_told.

Example C102_told_nonvacuous : new_dao dao_at (purse_dao false) /\
  md_name (en_metadata (w_enterprise (purse_dao false))) = 100 /\ md_name (en_metadata (w_enterprise changed_dao)) = 13 /\
  f_min (w_funds (purse_dao false)) = 0 /\ f_min (w_funds changed_dao) = 3 /\ period_of (w_member changed_dao) = Some (DTime 5000) /\
  period_of (w_member (purse_dao false)) <> Some (DTime 5000) /\
  map (ohas (tr_natives (w_treasury (purse_dao false)))) [70; 71] = [true; false] /\ map (ohas (tr_natives (w_treasury changed_dao))) [70; 71] = [false; true] /\
  map (ohas (tr_cw20s (w_treasury changed_dao))) [80; 81; 82] = [true; true; false] /\ map (ohas (tr_nfts (w_treasury changed_dao))) [90; 91] = [true; false] /\
  map (ohas (m_hooks (members_of (w_member changed_dao)))) [3; 4] = [true; false].
Proof. exact told_case. Qed.
