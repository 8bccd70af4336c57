(** Cases of decisions about the lists of the treasury. *)
From Verif Require Import Base OMap OMapLemmas Assets PollModel PollSpec FundsModel MemberModel MemberSpec Msgs ControllerModel ControllerSpec
  TreasuryModel TreasurySpec EnterpriseModel OutpostsModel WorldModel WorldSpec WorldRun WorldExamples WorldCases LiveSpec LiveCases EndSpec RipeSpec RipeFacts
  PurseSpec PurseCases OrderSpec FacadeSpec BallotSpec RecountSpec MajoritySpec MajorityFacts MajorityCases EnactCases ShelfSpec ShelfFacts.

(** 11 proposes to list a denom and a token, to list a collection, and to take the token off again. *)
Definition new_lists : list proposal_action :=
  [PUpdateAssets None [Native 70; Cw20 55] []; PUpdateNfts None [66] []; PUpdateAssets None [] [Cw20 55]].
Definition listing : list tx := stakes ++ [propose 100 11 new_lists; vote_yes 110 11 1].

(** First the deposit is abolished, then the lists are changed. *)
Definition no_deposit : proposal_action := PUpdateGovConfig (mk_gov_config_update NoChange NoChange NoChange NoChange NoChange (Change None) NoChange).
Definition free_listing : list tx :=
  stakes ++ [propose 100 11 [no_deposit]; vote_yes 110 11 1; execute 1100 12 1; to_ctl 1200 11 [] (CCreateProposal new_lists None); vote_yes 1210 11 2].

Lemma new_lists_fine : Forall about_lists new_lists.
Proof.
  repeat constructor; try (cbn; discriminate); try exact I; cbn; intros H; repeat destruct H as [H|H]; try discriminate H; exact H.
Qed.

Definition lists_then (w : world unit) := let t := w_treasury w in (okeys (tr_natives t), okeys (tr_cw20s t), okeys (tr_nfts t)).

Lemma listing_case : exists p pl gas w' d, let w := world_run idle dao_at (dao false) listing in let e := clock 1100 in
  new_dao dao_at (dao false) /\ tr_admin (w_treasury (dao false)) = a_controller dao_at /\ free_calls idle /\ lasting w /\ treasury_kept dao_at w /\
  ripe idle dao_at w e 12 1 p pl 100 /\ final_status pl 100 = Passed 0 60 /\ pi_actions p = new_lists /\ Forall about_lists new_lists /\
  go idle dao_at gas w e (JMsg 12 (ask_resolution dao_at 1)) = Ok (w', d) /\
  lists_then w = ([], [], []) /\ lists_then w' = ([70], [], [66]).
Proof.
  exists (record (after false listing)), (its_poll (after false listing)), 60%nat, (after false (listing ++ [execute 1100 12 1])), None.
  cbn zeta. split; [exact (start_new _)|]. split; [vm_compute; reflexivity|]. split; [exact idle_free|]. split; [split; vm_compute; reflexivity|].
  split; [apply kept_check; vm_compute; reflexivity|].
  split; [apply ripe_check; vm_compute; reflexivity|]. split; [vm_compute; reflexivity|]. split; [vm_compute; reflexivity|].
  split; [exact new_lists_fine|]. do 2 (split; [vm_compute; reflexivity|]). vm_compute; reflexivity.
Qed.

Definition record_of (w : world unit) (id : N) : proposal_info :=
  match oget (ct_proposals (w_ctl w)) id with Some p => p | None => mk_info General None None None [] end.
Definition poll_of (w : world unit) (id : N) : poll :=
  match oget (g_polls (w_gov w)) id with Some p => p | None => its_poll w end.

Lemma free_listing_case : exists p pl, let w := world_run idle dao_at (dao false) free_listing in
  new_dao dao_at (dao false) /\ tr_admin (w_treasury (dao false)) = a_controller dao_at /\ free_calls idle /\ lasting w /\ treasury_kept dao_at w /\
  ripe idle dao_at w (clock 2200) 12 2 p pl 100 /\ final_status pl 100 = Passed 0 60 /\ pi_actions p = new_lists /\ Forall about_lists new_lists /\ pi_deposit p = None.
Proof.
  exists (record_of (after false free_listing) 2), (poll_of (after false free_listing) 2).
  cbn zeta. split; [exact (start_new _)|]. split; [vm_compute; reflexivity|]. split; [exact idle_free|]. split; [split; vm_compute; reflexivity|].
  split; [apply kept_check; vm_compute; reflexivity|].
  split; [apply ripe_check; vm_compute; reflexivity|]. split; [vm_compute; reflexivity|]. split; [vm_compute; reflexivity|].
  split; [exact new_lists_fine|]. vm_compute; reflexivity.
Qed.

Lemma listing_majority_case : exists p, let w' := world_run idle dao_at (dao false) (listing ++ turned) in
  new_dao dao_at (dao false) /\ tr_admin (w_treasury (dao false)) = a_controller dao_at /\ free_calls idle /\ created_by (50 * NANOS) (w_member (dao false)) /\ created_by (50 * NANOS) (w_council (dao false)) /\
  timely (50 * NANOS) (listing ++ turned) /\ lasting (runs listing) /\ lasting w' /\ calm dao_at w' /\ treasury_kept dao_at w' /\
  closing (runs listing) General 1 (1100 * NANOS) /\ oget (g_polls (w_gov (runs listing))) 1 = Some (open_poll_of listing) /\
  seconds_before (1100 * NANOS) listing /\ all_after (1100 * NANOS) turned /\
  stand_for dao_at (runs listing) 1 [Yes] [11] /\ winning (runs listing) (open_poll_of listing) [11] /\
  oget (ct_proposals (w_ctl w')) 1 = Some p /\ pi_executed_at p = None /\ oget (g_polls (w_gov w')) 1 = Some (open_poll_of listing) /\
  restricted_by idle dao_at w' 1 13 = Ok false /\ pi_actions p = new_lists /\ Forall about_lists new_lists.
Proof.
  exists (record (after false (listing ++ turned))).
  cbn zeta. split; [exact (start_new _)|]. split; [vm_compute; reflexivity|]. split; [exact idle_free|]. split; [apply both_created|]. split; [apply both_created|].
  split; [apply timely_check; vm_compute; reflexivity|]. split; [split; vm_compute; reflexivity|]. split; [split; vm_compute; reflexivity|].
  split; [apply calm_check; vm_compute; reflexivity|]. split; [apply kept_check; vm_compute; reflexivity|].
  split; [apply (closing_check _ (runs listing) 1 (1100 * NANOS) (open_poll_of listing)); vm_compute; reflexivity|].
  split; [vm_compute; reflexivity|]. split; [repeat constructor|]. split; [repeat (constructor; [vm_compute; discriminate|]); constructor|].
  split; [apply (stand_check _ dao_at (runs listing) 1 Yes [11]); [alone|vm_compute; reflexivity|left; reflexivity]|].
  split; [apply (winning_check _ (runs listing) (open_poll_of listing) [11] 60 100); vm_compute; reflexivity|].
  do 5 (split; [vm_compute; reflexivity|]). exact new_lists_fine.
Qed.

(** 11 proposes to list a collection and a cw1155 asset. *)
Definition odd_lists : list proposal_action := [PUpdateNfts None [66] []; PUpdateAssets None [Cw1155 55 1] []].
Definition odd_listing : list tx := stakes ++ [propose 100 11 odd_lists; vote_yes 110 11 1].

Lemma cw1155_refuted : exists ts p pl w', let w := world_run idle dao_at (dao false) ts in let e := clock 1100 in
  new_dao dao_at (dao false) /\ tr_admin (w_treasury (dao false)) = a_controller dao_at /\ free_calls idle /\ lasting w /\ treasury_kept dao_at w /\
  ripe idle dao_at w e 12 1 p pl 100 /\ final_status pl 100 = Passed 0 60 /\
  pi_actions p = [PUpdateNfts None [66] []; PUpdateAssets None [Cw1155 55 1] []] /\
  go idle dao_at 60 w e (JMsg 12 (ask_resolution dao_at 1)) = Ok (w', None) /\
  option_map p_status (oget (g_polls (w_gov w')) 1) = Some (Passed 0 60) /\ option_map pi_executed_at (oget (ct_proposals (w_ctl w')) 1) = Some (Some e) /\
  w_treasury w' = w_treasury (dao false) /\ lists_then w' = ([], [], []).
Proof.
  exists odd_listing, (record (after false odd_listing)), (its_poll (after false odd_listing)), (after false (odd_listing ++ [execute 1100 12 1])).
  cbn zeta. split; [exact (start_new _)|]. split; [vm_compute; reflexivity|]. split; [exact idle_free|]. split; [split; vm_compute; reflexivity|].
  split; [apply kept_check; vm_compute; reflexivity|].
  split; [apply ripe_check; vm_compute; reflexivity|]. do 6 (split; [vm_compute; reflexivity|]). vm_compute; reflexivity.
Qed.
