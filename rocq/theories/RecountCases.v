(** Cases of recounting. *)
From Verif Require Import Base OMap OMapLemmas Assets PollModel PollSpec FundsModel MemberModel MemberSpec Msgs ControllerModel ControllerSpec
  TreasuryModel EnterpriseModel OutpostsModel WorldModel WorldSpec WorldRun WorldExamples WorldCases LedgerExamples PassCases RewardCases LiveSpec LiveCases EndSpec
  PurseSpec BallotSpec BallotFacts BallotCases RecountSpec RecountFacts.

(** Weights of 11, 12 and 13 in DAOs of tokens, NFTs and coins, and of 61, 62 and 63 in a multisig one whose members a vote has replaced. *)
Lemma weights_case :
  new_dao dao_at (ledger_dao false) /\ new_dao dao_at (ledger_dao true) /\ new_dao dao_at (dao false) /\ new_dao dao_at fixed_dao /\
  let fixed := world_run idle dao_at fixed_dao reshuffle in let coins := after false switch in
  map (weight_of (w_member token_world)) [11; 12; 13] = map (fun u => recount 7 u 0 (w_log token_world)) [11; 12; 13] /\
  map (weight_of (w_member nft_world)) [11; 12; 13] = map (fun u => recount 7 u 0 (w_log nft_world)) [11; 12; 13] /\
  map (weight_of (w_member coins)) [11; 12; 13] = [60; 80; 0] /\ map (fun u => recount 7 u 0 (w_log coins)) [11; 12; 13] = [60; 80; 0] /\
  map (weight_of (w_member fixed_dao)) [61; 62; 63] = [3; 4; 0] /\ map (weight_of (w_member fixed)) [61; 62; 63] = [0; 1; 9] /\
  map (fun u => recount 7 u (weight_of (w_member fixed_dao) u) (w_log fixed)) [61; 62; 63] = [0; 1; 9] /\
  map (fun u => recount 8 u (weight_of (w_council fixed_dao) u) (w_log fixed)) [21; 22; 61] = [1; 1; 0].
Proof.
  split; [exact (ledger_new false)|]. split; [exact (ledger_new true)|]. split; [exact (start_new _)|]. split; [exact fixed_new|]. cbn zeta.
  split; [vm_compute; reflexivity|]. split; [vm_compute; reflexivity|]. split; [vm_compute; reflexivity|]. split; [vm_compute; reflexivity|].
  split; [vm_compute; reflexivity|]. split; [vm_compute; reflexivity|]. split; vm_compute; reflexivity.
Qed.

(** The two are staked and taken out again in part. *)
Definition leaving : list tx := [unstake 130 11 25].
Lemma losses_case :
  new_dao dao_at (dao false) /\ (forall m, w_member (dao false) <> MMultisig m) /\
  let w := after false switch in let w' := world_run idle dao_at w leaving in
  w_log w' = firstn (length (w_log w') - length (w_log w)) (w_log w') ++ w_log w /\
  map (weight_of (w_member w)) [11; 12] = [60; 80] /\ map (weight_of (w_member w')) [11; 12] = [35; 80] /\
  map (fun u => lsum (takes_out 7 u) (firstn (length (w_log w') - length (w_log w)) (w_log w'))) [11; 12] = [25; 0].
Proof.
  split; [exact (start_new _)|]. split; [intros m; vm_compute; discriminate|]. cbn zeta.
  split; [vm_compute; reflexivity|]. split; [vm_compute; reflexivity|]. split; vm_compute; reflexivity.
Qed.

(** The votes on a proposal, counted from what was delivered. *)
Lemma votes_case : let w := after false switch in
  new_dao dao_at (dao false) /\ timely 0 switch /\ lasting w /\ calm dao_at w /\ last_time switch <= 120 * NANOS /\ open_poll w General 1 (120 * NANOS) /\
  map (votes_for dao_at (weight_of (w_member (dao false))) (w_log w) 1) [Yes; No; Abstain; Veto] = [60; 80; 0; 0].
Proof.
  cbn zeta. destruct open_case as (H1 & H2 & H3 & H4 & H5 & H6 & _). repeat (split; [assumption|]). vm_compute. reflexivity.
Qed.

Lemma roll_check X (Out : outside X) A w0 ts l : new_dao A w0 ->
  elems (m_weights (members_of (w_member (world_run Out A w0 ts)))) = l ->
  roll A (weight_of (w_member w0)) (w_log (world_run Out A w0 ts)) (map fst l).
Proof.
  intros HN E. split; [rewrite <- E; apply okeys_NoDup|]. intros u Hu. rewrite <- (proj1 (member_weight_public X Out A w0 ts _ u HN eq_refl)) in Hu.
  rewrite <- E. apply okeys_In. unfold weight_of, ogetN in Hu. destruct (oget _ u) as [x|]; [eauto|destruct (Hu eq_refl)].
Qed.
Lemma roll_case : roll dao_at (weight_of (w_member (dao false))) (w_log (after false switch)) [11; 12] /\
  all_votes dao_at (weight_of (w_member (dao false))) (w_log (after false switch)) [11; 12] = 140.
Proof.
  split; [|vm_compute; reflexivity]. unfold after.
  apply (roll_check _ idle dao_at (dao false) switch [(11, 60); (12, 80)]); [exact (start_new _)|vm_compute; reflexivity].
Qed.

(** Two ways for the story to go on after the end. *)
Lemma held_check X (Out : outside X) A birth w0 before later id ends pl pl' : new_dao A w0 -> created_by birth (w_member w0) -> created_by birth (w_council w0) ->
  timely birth (before ++ later) -> lasting (world_run Out A w0 before) -> lasting (world_run Out A w0 (before ++ later)) -> calm A (world_run Out A w0 (before ++ later)) ->
  option_map pi_type (oget (ct_proposals (w_ctl (world_run Out A w0 before))) id) = Some General ->
  oget (g_polls (w_gov (world_run Out A w0 before))) id = Some pl -> p_status pl = InProgress ends -> seconds_before ends before -> all_after ends later ->
  oget (g_polls (w_gov (world_run Out A w0 (before ++ later)))) id = Some pl' -> p_status pl' <> InProgress ends ->
  held Out A w0 (world_run Out A w0 before) id pl pl'.
Proof.
  intros H1 H2 H3 H4 H5 H6 H7 H8 H9 H10 H11 H12 H13 H14. split; [exact H1|exact H9|]. exists birth, before, later, ends.
  split; [reflexivity|]. repeat (split; [assumption|]). split.
  { destruct (oget (ct_proposals _) id) as [p|] eqn:E; [|discriminate]. injection H8 as H8. exists p, pl. auto. }
  auto.
Qed.

Definition poll_now : poll := mk_poll 1 11 0 (InProgress (1100 * NANOS)) (100 * NANOS) (1100 * NANOS) (percent 30) (percent 50) None
  (p_results (dflt (mk_poll 0 0 0 (InProgress 0) 0 0 0 0 None oempty) (oget (g_polls (w_gov (after false switch))) 1))).
Definition poll_then : poll := mk_poll 1 11 0 (Rejected IsRejectingOutcome) (100 * NANOS) (1100 * NANOS) (percent 30) (percent 50) None (p_results poll_now).

Lemma held_late : held idle dao_at (dao false) (world_run idle dao_at (dao false) switch) 1 poll_now poll_then.
Proof.
  apply (held_check _ idle dao_at (50 * NANOS) (dao false) switch switch_later 1 (1100 * NANOS) poll_now poll_then);
  [exact (start_new _)|apply both_created|apply both_created|apply timely_check; vm_compute; reflexivity|split; vm_compute; reflexivity|split; vm_compute; reflexivity
  |apply calm_check; vm_compute; reflexivity|vm_compute; reflexivity|vm_compute; reflexivity|vm_compute; reflexivity|repeat constructor
  |repeat (constructor; [vm_compute; discriminate|]); constructor|vm_compute; reflexivity|vm_compute; discriminate].
Qed.
Lemma held_soon : held idle dao_at (dao false) (world_run idle dao_at (dao false) switch) 1 poll_now poll_then.
Proof.
  apply (held_check _ idle dao_at (50 * NANOS) (dao false) switch [execute 1500 11 1] 1 (1100 * NANOS) poll_now poll_then);
  [exact (start_new _)|apply both_created|apply both_created|apply timely_check; vm_compute; reflexivity|split; vm_compute; reflexivity|split; vm_compute; reflexivity
  |apply calm_check; vm_compute; reflexivity|vm_compute; reflexivity|vm_compute; reflexivity|vm_compute; reflexivity|repeat constructor
  |repeat (constructor; [vm_compute; discriminate|]); constructor|vm_compute; reflexivity|vm_compute; discriminate].
Qed.
Lemma held_both :
  held idle dao_at (dao false) (world_run idle dao_at (dao false) switch) 1 poll_now poll_then /\
  held idle dao_at (dao false) (world_run idle dao_at (dao false) switch) 1 poll_now poll_then /\
  switch_later <> [execute 1500 11 1] /\ same_rules poll_now poll_now.
Proof. split; [exact held_late|]. split; [exact held_soon|]. split; [discriminate|repeat split]. Qed.
