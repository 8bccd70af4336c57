(** Cases of decisions about the council. *)
From Verif Require Import Base OMap OMapLemmas Assets PollModel PollSpec FundsModel MemberModel MemberSpec Msgs ControllerModel ControllerSpec
  TreasuryModel EnterpriseModel OutpostsModel WorldModel WorldSpec WorldRun WorldExamples WorldCases LiveSpec LiveCases EndSpec RipeSpec RipeFacts
  PurseSpec OrderSpec SettingSpec SettingFacts BallotSpec RecountSpec MajoritySpec MajorityFacts MajorityCases EnactSpec EnactFacts EnactCases DismissSpec DismissFacts.

(** 11 proposes that there be no council, then another name, then a council of 22 and 31, which may do nothing but change the description. *)
Definition two : option council_spec := Some (mk_council_spec [22; 31] (percent 60) (percent 55) (Some [TUpdateMetadata])).
Definition new_council : list proposal_action := [PUpdateCouncil None; PUpdateMetadata new_name; PUpdateCouncil two].
Definition replacement : list tx := stakes ++ [propose 100 11 new_council; vote_yes 110 11 1].

Lemma internal_check l : forallb (fun a => match a with PUpdateMetadata _ => true | PUpdateCouncil c => N.of_nat (length (named c)) <? M128 | _ => false end) l = true -> Forall internal l.
Proof.
  intros H. rewrite forallb_forall in H. apply Forall_forall. intros a Ha. specialize (H a Ha). destruct a; try discriminate H; [left; exact I|].
  right. eexists. split; [reflexivity|]. apply N.ltb_lt. exact H.
Qed.
Lemma ready_check X A (w : world X) m : w_council w = MMultisig m -> m_enterprise m = a_enterprise A -> forallb (N.eqb (a_controller A)) (okeys (m_hooks m)) = true -> council_ready A w.
Proof.
  intros E1 E2 H. exists m. split; [exact E1|]. split; [exact E2|]. intros h Hh. rewrite forallb_forall in H. symmetry. apply N.eqb_eq. apply H. apply okeys_In. apply ohas_true. exact Hh.
Qed.
Definition the_council (w : world unit) : members := members_of (w_council w).

Lemma replacement_case : exists p pl gas w' d, let w := world_run idle dao_at (dao false) replacement in let e := clock 1100 in
  new_dao dao_at (dao false) /\ rules_fit (dao false) /\ free_calls idle /\ lasting w /\ council_ready dao_at w /\ ripe idle dao_at w e 12 1 p pl 100 /\
  final_status pl 100 = Passed 0 60 /\ pi_actions p = new_council /\ Forall internal (pi_actions p) /\
  go idle dao_at gas w e (JMsg 12 (ask_resolution dao_at 1)) = Ok (w', d) /\
  map (weight_of (w_council w)) [21; 22; 23; 31] = [1; 1; 1; 0] /\ map (weight_of (w_council w')) [21; 22; 23; 31] = [0; 1; 0; 1] /\ total_now (w_council w') = 2 /\
  ct_council (w_ctl w') = Some (mk_council_config [TUpdateMetadata] (percent 60) (percent 55)) /\ md_name (en_metadata (w_enterprise w')) = 13.
Proof.
  exists (record (after false replacement)), (its_poll (after false replacement)), 60%nat, (after false (replacement ++ [execute 1100 12 1])), None.
  cbn zeta. split; [exact (start_new _)|]. split; [exact (dao_fits _)|]. split; [exact idle_free|]. split; [split; vm_compute; reflexivity|].
  split; [apply (ready_check _ dao_at _ (the_council (after false replacement))); vm_compute; reflexivity|].
  split; [apply ripe_check; vm_compute; reflexivity|]. split; [vm_compute; reflexivity|]. split; [vm_compute; reflexivity|].
  split; [apply internal_check; vm_compute; reflexivity|]. do 5 (split; [vm_compute; reflexivity|]). vm_compute; reflexivity.
Qed.

Lemma no_hooks_check A (l : list (addr * cosmos_msg)) :
  forallb (fun x => match snd x with WasmExecute _ (ToMembership (MultisigMsg (MAddHook _))) _ => false | _ => true end) l = true ->
  forall s h coins, In (s, WasmExecute (a_council A) (ToMembership (MultisigMsg (MAddHook h))) coins) l -> h = a_controller A.
Proof. intros H s h coins Hi. rewrite forallb_forall in H. discriminate (H _ Hi). Qed.

Lemma ready_case : let w := world_run idle dao_at (dao false) replacement in council_ready dao_at (dao false) /\
  (forall s h coins, In (s, WasmExecute (a_council dao_at) (ToMembership (MultisigMsg (MAddHook h))) coins) (w_log w) -> h = a_controller dao_at).
Proof.
  cbn zeta. split.
  - apply (ready_check _ dao_at _ (the_council (dao false))); vm_compute; reflexivity.
  - apply no_hooks_check. vm_compute; reflexivity.
Qed.

Lemma majority_replaces_case : exists p, let w' := world_run idle dao_at (dao false) (replacement ++ turned) in
  new_dao dao_at (dao false) /\ rules_fit (dao false) /\ free_calls idle /\ created_by (50 * NANOS) (w_member (dao false)) /\ created_by (50 * NANOS) (w_council (dao false)) /\
  timely (50 * NANOS) (replacement ++ turned) /\ lasting (runs replacement) /\ lasting w' /\ calm dao_at w' /\ council_ready dao_at w' /\
  closing (runs replacement) General 1 (1100 * NANOS) /\ oget (g_polls (w_gov (runs replacement))) 1 = Some (open_poll_of replacement) /\
  seconds_before (1100 * NANOS) replacement /\ all_after (1100 * NANOS) turned /\
  stand_for dao_at (runs replacement) 1 [Yes] [11] /\ winning (runs replacement) (open_poll_of replacement) [11] /\
  oget (ct_proposals (w_ctl w')) 1 = Some p /\ pi_executed_at p = None /\ oget (g_polls (w_gov w')) 1 = Some (open_poll_of replacement) /\
  restricted_by idle dao_at w' 1 13 = Ok false /\ Forall internal (pi_actions p) /\
  pi_actions p = [PUpdateCouncil None; PUpdateMetadata new_name] ++ PUpdateCouncil two :: [] /\ existsb about_council [] = false.
Proof.
  exists (record (after false (replacement ++ turned))).
  cbn zeta. split; [exact (start_new _)|]. split; [exact (dao_fits _)|]. split; [exact idle_free|]. split; [apply both_created|]. split; [apply both_created|].
  split; [apply timely_check; vm_compute; reflexivity|]. split; [split; vm_compute; reflexivity|]. split; [split; vm_compute; reflexivity|].
  split; [apply calm_check; vm_compute; reflexivity|].
  split; [apply (ready_check _ dao_at _ (the_council (after false (replacement ++ turned)))); vm_compute; reflexivity|].
  split; [apply (closing_check _ (runs replacement) 1 (1100 * NANOS) (open_poll_of replacement)); vm_compute; reflexivity|].
  split; [vm_compute; reflexivity|]. split; [repeat constructor|]. split; [repeat (constructor; [vm_compute; discriminate|]); constructor|].
  split; [apply (stand_check _ dao_at (runs replacement) 1 Yes [11]); [alone|vm_compute; reflexivity|left; reflexivity]|].
  split; [apply (winning_check _ (runs replacement) (open_poll_of replacement) [11] 60 100); vm_compute; reflexivity|].
  do 4 (split; [vm_compute; reflexivity|]). split; [apply internal_check; vm_compute; reflexivity|]. split; vm_compute; reflexivity.
Qed.

(** * Somebody else is told *)

(** The contract at 99 refuses everything. *)
Definition sulking : outside unit :=
  mk_outside (fun _ _ _ to _ _ => if to =? 99 then Err EStd else Ok (tt, [], None)) (fun _ _ _ _ _ => Ok (tt, [])) (fun _ _ _ _ => Ok (tt, None)) (fun _ _ _ _ => Ok tt)
    (fun _ _ u => Ok (negb (u =? 666))) (fun _ _ _ => Err EStd) (fun _ _ _ => Ok None) (fun _ _ => []) (fun _ _ _ _ => Err EStd)
    (fun _ _ _ => Err EStd) (fun _ _ => Ok 9) (fun _ _ _ => Err EStd) (fun _ _ => None).

Definition told_99 : list tx :=
  stakes ++ [propose 100 11 [PExecuteMsgs [Some (WasmExecute 8 (ToMembership (MultisigMsg (MAddHook 99))) [])]]; vote_yes 110 11 1; execute 1100 12 1;
    propose 1200 11 [PUpdateCouncil None]; vote_yes 1210 11 2].

Lemma hook_refuted : exists ts p pl w', let w := world_run sulking dao_at (dao false) ts in let e := clock 2200 in
  new_dao dao_at (dao false) /\ rules_fit (dao false) /\ free_calls sulking /\ lasting w /\ council_ready dao_at (dao false) /\ ripe sulking dao_at w e 12 2 p pl 100 /\
  final_status pl 100 = Passed 0 60 /\ pi_actions p = [PUpdateCouncil None] /\
  go sulking dao_at 60 w e (JMsg 12 (ask_resolution dao_at 2)) = Ok (w', None) /\
  option_map p_status (oget (g_polls (w_gov w')) 2) = Some (Passed 0 60) /\ option_map pi_executed_at (oget (ct_proposals (w_ctl w')) 2) = Some (Some e) /\
  map (weight_of (w_council w')) [21; 22; 23] = [1; 1; 1] /\ ct_council (w_ctl w') = ct_council (w_ctl (dao false)) /\ ct_council (w_ctl w') <> None.
Proof.
  pose (w := world_run sulking dao_at (dao false) told_99).
  exists told_99, (dflt no_info (oget (ct_proposals (w_ctl w)) 2)), (dflt no_poll (oget (g_polls (w_gov w)) 2)), (world_run sulking dao_at (dao false) (told_99 ++ [execute 2200 12 2])).
  unfold w. cbn zeta. split; [exact (start_new _)|]. split; [exact (dao_fits _)|]. split; [intros x a b; destruct x; reflexivity|]. split; [split; vm_compute; reflexivity|].
  split; [apply (ready_check _ dao_at _ (the_council (dao false))); vm_compute; reflexivity|].
  split; [apply ripe_check; vm_compute; reflexivity|]. do 7 (split; [vm_compute; reflexivity|]). vm_compute; discriminate.
Qed.
