(** Cases of decisions about the rules and the description. *)
From Verif Require Import Base OMap OMapLemmas Assets PollModel PollSpec FundsModel MemberModel MemberSpec Msgs ControllerModel ControllerSpec
  TreasuryModel EnterpriseModel OutpostsModel WorldModel WorldSpec WorldRun WorldExamples WorldCases LiveSpec LiveCases EndSpec RipeSpec RipeFacts
  PurseSpec OrderSpec SettingSpec BallotSpec RecountSpec MajoritySpec MajorityFacts MajorityCases EnactSpec EnactProofs EnactFacts.

(** 11 proposes a new name, another quorum and a veto share, a shorter vote and yet another quorum. *)
Definition new_name : metadata_update := mk_metadata_update (Change 13) NoChange NoChange NoChange NoChange NoChange NoChange.
Definition new_rules : list proposal_action :=
  [PUpdateMetadata new_name;
   PUpdateGovConfig (mk_gov_config_update (Change (percent 40)) NoChange (Change (Some (percent 20))) NoChange NoChange NoChange NoChange);
   PUpdateGovConfig (mk_gov_config_update (Change (percent 45)) NoChange NoChange (Change 500) NoChange NoChange NoChange)].
Definition reform : list tx := stakes ++ [propose 100 11 new_rules; vote_yes 110 11 1].
Definition council_reform : list tx :=
  stakes ++ [to_ctl 100 21 [] (CCreateCouncilProposal [PUpdateMetadata new_name]); to_ctl 110 21 [] (CCastCouncilVote 1 Yes); to_ctl 111 22 [] (CCastCouncilVote 1 Yes)].

Lemma ripe_check X (Out : outside X) A (w : world X) e s id p pl total :
  restricted_by Out A w (a_enterprise A) s = Ok false -> oget (ct_proposals (w_ctl w)) id = Some p -> pi_executed_at p = None ->
  match pi_earliest p with Some t => t <=? e_time e | None => true end = true -> oget (g_polls (w_gov w)) id = Some pl ->
  counting w (pi_type p) pl (e_time e) = total -> (total =? 0) = false ->
  (p_ends_at pl <=? e_time e) || match pi_type p with Council => true | General => gc_allow_early (ct_config (w_ctl w)) end = true -> ripe Out A w e s id p pl total.
Proof.
  intros H1 H2 H3 H4 H5 H6 H7 H8. split; auto.
  - intros t E. rewrite E in H4. apply N.leb_le. exact H4.
  - intros ->. discriminate H7.
  - intros L. apply orb_true_iff in H8. destruct H8 as [H8|H8]; [apply N.leb_le in H8; lia|]. unfold may_be_early. destruct (pi_type p); auto.
Qed.

Lemma dao_fits early : rules_fit (dao early).
Proof.
  apply (created_fit unit (dao early) (clock 50) 1 (w_config early) (Some w_councillors) [] None). destruct early; vm_compute; reflexivity.
Qed.

Lemma house_check l : forallb (fun a => match a with PUpdateMetadata _ => true | PUpdateGovConfig u => match gu_unlocking_period u with NoChange => true | _ => false end | _ => false end) l = true -> Forall house l.
Proof.
  intros H. rewrite forallb_forall in H. apply Forall_forall. intros a Ha. specialize (H a Ha). destruct a; try discriminate H; [exact I|].
  cbn [house]. destruct (gu_unlocking_period u); [discriminate H|reflexivity].
Qed.

Definition config_then (c : ctl) := let g := ct_config c in (gc_quorum g, gc_threshold g, gc_veto_threshold g, gc_vote_duration g).

Lemma created_case : ctl_instantiate (clock 50) 1 (en_type (w_enterprise (dao false))) (w_config false) (Some w_councillors) [] None = Ok (w_ctl (dao false)).
Proof. vm_compute; reflexivity. Qed.

Lemma reform_case : exists p pl gas w' d, let w := world_run idle dao_at (dao false) reform in let e := clock 1100 in
  new_dao dao_at (dao false) /\ rules_fit (dao false) /\ free_calls idle /\ lasting w /\ ripe idle dao_at w e 12 1 p pl 100 /\
  final_status pl 100 = Passed 0 60 /\ pi_actions p = new_rules /\ Forall house (pi_actions p) /\ pi_deposit p = Some (mk_deposit 11 (DDenom 70 25)) /\
  go idle dao_at gas w e (JMsg 12 (ask_resolution dao_at 1)) = Ok (w', d) /\
  config_then (w_ctl w) = (percent 30, percent 50, None, 1000) /\ config_then (w_ctl w') = (percent 45, percent 50, Some (percent 20), 500) /\
  md_name (en_metadata (w_enterprise w)) = 100 /\ md_name (en_metadata (w_enterprise w')) = 13.
Proof.
  exists (record (after false reform)), (its_poll (after false reform)), 60%nat, (after false (reform ++ [execute 1100 12 1])), None.
  cbn zeta. split; [exact (start_new _)|]. split; [exact (dao_fits _)|]. split; [exact idle_free|]. split; [split; vm_compute; reflexivity|].
  split; [apply ripe_check; vm_compute; reflexivity|]. split; [vm_compute; reflexivity|]. split; [vm_compute; reflexivity|].
  split; [apply house_check; vm_compute; reflexivity|]. do 5 (split; [vm_compute; reflexivity|]). vm_compute; reflexivity.
Qed.

Lemma council_reform_case : exists p pl, let w := world_run idle dao_at (dao false) council_reform in
  new_dao dao_at (dao false) /\ rules_fit (dao false) /\ free_calls idle /\ lasting w /\ ripe idle dao_at w (clock 112) 12 1 p pl 3 /\
  final_status pl 3 = Passed 0 2 /\ pi_actions p = [PUpdateMetadata new_name] /\ Forall house (pi_actions p) /\ pi_deposit p = None.
Proof.
  exists (record (after false council_reform)), (its_poll (after false council_reform)).
  cbn zeta. split; [exact (start_new _)|]. split; [exact (dao_fits _)|]. split; [exact idle_free|]. split; [split; vm_compute; reflexivity|].
  split; [apply ripe_check; vm_compute; reflexivity|]. split; [vm_compute; reflexivity|]. split; [vm_compute; reflexivity|].
  split; [apply house_check; vm_compute; reflexivity|]. vm_compute; reflexivity.
Qed.

Lemma majority_case : exists p, let w' := world_run idle dao_at (dao false) (reform ++ turned) in
  new_dao dao_at (dao false) /\ rules_fit (dao false) /\ free_calls idle /\ created_by (50 * NANOS) (w_member (dao false)) /\ created_by (50 * NANOS) (w_council (dao false)) /\
  timely (50 * NANOS) (reform ++ turned) /\ lasting (runs reform) /\ lasting w' /\ calm dao_at w' /\
  closing (runs reform) General 1 (1100 * NANOS) /\ oget (g_polls (w_gov (runs reform))) 1 = Some (open_poll_of reform) /\
  seconds_before (1100 * NANOS) reform /\ all_after (1100 * NANOS) turned /\
  stand_for dao_at (runs reform) 1 [Yes] [11] /\ winning (runs reform) (open_poll_of reform) [11] /\
  oget (ct_proposals (w_ctl w')) 1 = Some p /\ pi_executed_at p = None /\ oget (g_polls (w_gov w')) 1 = Some (open_poll_of reform) /\
  restricted_by idle dao_at w' 1 13 = Ok false /\ Forall house (pi_actions p).
Proof.
  exists (record (after false (reform ++ turned))).
  cbn zeta. split; [exact (start_new _)|]. split; [exact (dao_fits _)|]. split; [exact idle_free|]. split; [apply both_created|]. split; [apply both_created|].
  split; [apply timely_check; vm_compute; reflexivity|]. split; [split; vm_compute; reflexivity|]. split; [split; vm_compute; reflexivity|].
  split; [apply calm_check; vm_compute; reflexivity|].
  split; [apply (closing_check _ (runs reform) 1 (1100 * NANOS) (open_poll_of reform)); vm_compute; reflexivity|].
  split; [vm_compute; reflexivity|]. split; [repeat constructor|]. split; [repeat (constructor; [vm_compute; discriminate|]); constructor|].
  split; [apply (stand_check _ dao_at (runs reform) 1 Yes [11]); [alone|vm_compute; reflexivity|left; reflexivity]|].
  split; [apply (winning_check _ (runs reform) (open_poll_of reform) [11] 60 100); vm_compute; reflexivity|].
  do 4 (split; [vm_compute; reflexivity|]). apply house_check; vm_compute; reflexivity.
Qed.

(** 11 proposes a new name together with a shorter unstaking period, and a longer vote. Both proposals pass; the second is executed first. *)
Definition quarrel : list tx :=
  stakes ++ [propose 100 11 [PUpdateMetadata new_name; PUpdateGovConfig (mk_gov_config_update NoChange NoChange NoChange NoChange (Change (DTime 1500)) NoChange NoChange)];
    propose 101 11 [PUpdateGovConfig (mk_gov_config_update NoChange NoChange NoChange (Change 1900) NoChange NoChange NoChange)];
    vote_yes 110 11 1; vote_yes 111 11 2; execute 1101 12 2].

Lemma period_refuted : exists ts p pl w', let w := world_run idle dao_at (dao false) ts in let e := clock 1102 in
  new_dao dao_at (dao false) /\ rules_fit (dao false) /\ free_calls idle /\ lasting w /\ ripe idle dao_at w e 12 1 p pl 100 /\
  final_status pl 100 = Passed 0 60 /\
  pi_actions p = [PUpdateMetadata new_name; PUpdateGovConfig (mk_gov_config_update NoChange NoChange NoChange NoChange (Change (DTime 1500)) NoChange NoChange)] /\
  go idle dao_at 60 w e (JMsg 12 (ask_resolution dao_at 1)) = Ok (w', None) /\
  option_map p_status (oget (g_polls (w_gov w')) 1) = Some (Passed 0 60) /\ option_map pi_executed_at (oget (ct_proposals (w_ctl w')) 1) = Some (Some e) /\
  en_metadata (w_enterprise w') = en_metadata (w_enterprise (dao false)) /\ md_name (en_metadata (w_enterprise w')) = 100.
Proof.
  exists quarrel, (record (after false quarrel)), (its_poll (after false quarrel)), (after false (quarrel ++ [execute 1102 12 1])).
  cbn zeta. split; [exact (start_new _)|]. split; [exact (dao_fits _)|]. split; [exact idle_free|]. split; [split; vm_compute; reflexivity|].
  split; [apply ripe_check; vm_compute; reflexivity|]. do 6 (split; [vm_compute; reflexivity|]). vm_compute; reflexivity.
Qed.
