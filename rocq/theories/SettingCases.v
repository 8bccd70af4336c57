(** A DAO that changes its settings, twice. *)
From Verif Require Import Base OMap OMapLemmas Assets PollModel PollSpec FundsModel MemberModel MemberSpec Msgs ControllerModel ControllerSpec
  TreasuryModel EnterpriseModel OutpostsModel WorldModel WorldSpec WorldExamples LedgerSpec LedgerExamples PurseSpec PurseCases RuleCases SettingSpec.

Definition one_update : gov_config_update := mk_gov_config_update (Change (percent 11)) NoChange (Change (Some (percent 20))) NoChange (Change (DTime 5000)) NoChange NoChange.
Definition two_update : gov_config_update := mk_gov_config_update (Change (percent 12)) (Change (percent 60)) NoChange NoChange NoChange NoChange (Change true).
Definition new_council : council_spec := mk_council_spec [31; 32] (percent 40) (percent 70) None.
Definition first_changes : list proposal_action :=
  [PUpdateGovConfig one_update; PUpdateMetadata renamed; PUpdateMinimumWeight 5; PUpdateAssets None [Native 71; Cw20 81] [Native 70]; PUpdateNfts None [90] [91]].
Definition second_changes : list proposal_action := [PUpdateGovConfig two_update; PUpdateCouncil (Some new_council); PUpdateMinimumWeight 3].
Definition changing : list tx :=
  stakes ++ [propose 100 11 first_changes; propose 101 11 second_changes; vote_yes 110 11 1; vote_yes 111 11 2; execute 1200 12 1; execute 1201 12 2].
Definition changed_dao : world book := world_run chain dao_at (purse_dao false) changing.

Lemma setting_case : new_dao dao_at (purse_dao false) /\ lasting changed_dao /\ runs dao_at changed_dao = [2; 1] /\ acts dao_at changed_dao = first_changes ++ second_changes /\
  gc_quorum (ct_config (w_ctl changed_dao)) = percent 12 /\ gc_veto_threshold (ct_config (w_ctl changed_dao)) = Some (percent 20) /\
  gc_threshold (ct_config (w_ctl changed_dao)) = percent 60 /\ gc_allow_early (ct_config (w_ctl changed_dao)) = true /\
  gc_vote_duration (ct_config (w_ctl changed_dao)) = gc_vote_duration (ct_config (w_ctl (purse_dao false))) /\
  ct_council (w_ctl changed_dao) = Some (mk_council_config [TUpgradeDao] (percent 40) (percent 70)) /\
  ct_council (w_ctl (purse_dao false)) <> ct_council (w_ctl changed_dao).
Proof.
  split; [apply purse_new|]. split; [apply lasting_check; vm_compute; reflexivity|]. repeat (split; [vm_compute; reflexivity|]). vm_compute. discriminate.
Qed.

Lemma told_case : new_dao dao_at (purse_dao false) /\
  md_name (en_metadata (w_enterprise (purse_dao false))) = 100 /\ md_name (en_metadata (w_enterprise changed_dao)) = 13 /\
  f_min (w_funds (purse_dao false)) = 0 /\ f_min (w_funds changed_dao) = 3 /\ period_of (w_member changed_dao) = Some (DTime 5000) /\
  period_of (w_member (purse_dao false)) <> Some (DTime 5000) /\
  map (ohas (tr_natives (w_treasury (purse_dao false)))) [70; 71] = [true; false] /\ map (ohas (tr_natives (w_treasury changed_dao))) [70; 71] = [false; true] /\
  map (ohas (tr_cw20s (w_treasury changed_dao))) [80; 81; 82] = [true; true; false] /\ map (ohas (tr_nfts (w_treasury changed_dao))) [90; 91] = [true; false] /\
  map (ohas (m_hooks (members_of (w_member changed_dao)))) [3; 4] = [true; false].
Proof. split; [apply purse_new|]. repeat (split; [vm_compute; (reflexivity || discriminate)|]). vm_compute. reflexivity. Qed.
