(** Cases of votes that count. *)
From Verif Require Import Base OMap OMapLemmas Assets PollModel PollSpec FundsModel MemberModel MemberSpec Msgs ControllerModel ControllerSpec
  TreasuryModel EnterpriseModel OutpostsModel WorldModel WorldSpec WorldRun WorldExamples WorldCases LiveSpec LiveCases EndSpec PurseSpec BallotSpec BallotFacts.

(** 12 votes yes with 40, then no, and doubles the stake; 11 votes yes with 60. After the end 11 adds a fortune and has it executed. *)
Definition switch : list tx :=
  stakes ++ [propose 100 11 [PUpdateMinimumWeight 5]; vote_yes 110 12 1; to_ctl 111 12 [] (CCastVote 1 No); vote_yes 112 11 1; stake 120 12 40].
Definition switch_later : list tx := [stake 1100 11 100000; execute 1300 13 1].

Lemma switch_case : let w := after false switch in let w' := after false (switch ++ switch_later) in
  new_dao dao_at (dao false) /\ created_by (50 * NANOS) (w_member (dao false)) /\ created_by (50 * NANOS) (w_council (dao false)) /\
  timely (50 * NANOS) (switch ++ switch_later) /\ lasting w /\ lasting w' /\ calm dao_at w' /\ unforged dao_at w' /\
  closing w General 1 (1100 * NANOS) /\ seconds_before (1100 * NANOS) switch /\ all_after (1100 * NANOS) switch_later /\
  map (fun u => last_ballot dao_at (w_log w) u 1) [11; 12; 13] = [Some Yes; Some No; None] /\
  support dao_at w 1 Yes = 60 /\ support dao_at w 1 No = 80 /\ weight_now w General = 140 /\
  option_map p_status (oget (g_polls (w_gov w')) 1) = Some (Rejected IsRejectingOutcome).
Proof.
  cbn zeta. unfold after.
  assert (N : new_dao dao_at (dao false)) by exact (start_new _).
  assert (C : calm dao_at (world_run idle dao_at (dao false) (switch ++ switch_later))) by (apply calm_check; vm_compute; reflexivity).
  assert (L : lasting (world_run idle dao_at (dao false) (switch ++ switch_later))) by (split; vm_compute; reflexivity).
  assert (T : timely 0 (switch ++ switch_later)) by (apply timely_check; vm_compute; reflexivity).
  assert (U := calm_unforged _ idle dao_at (dao false) _ N T L C).
  split; [exact N|]. split; [apply both_created|]. split; [apply both_created|].
  split; [apply timely_check; vm_compute; reflexivity|].
  split; [split; vm_compute; reflexivity|]. split; [exact L|]. split; [exact C|].
  split; [exact U|].
  split.
  { destruct (oget (ct_proposals (w_ctl (world_run idle dao_at (dao false) switch))) 1) as [p|] eqn:E1; [|vm_compute in E1; discriminate].
    destruct (oget (g_polls (w_gov (world_run idle dao_at (dao false) switch))) 1) as [pl|] eqn:E2; [|vm_compute in E2; discriminate].
    exists p, pl. vm_compute in E1, E2. injection E1 as <-. injection E2 as <-. repeat split. }
  split; [repeat constructor|]. split; [repeat (constructor; [vm_compute; discriminate|]); constructor|].
  split; [vm_compute; reflexivity|]. split; [vm_compute; reflexivity|]. split; [vm_compute; reflexivity|]. split; vm_compute; reflexivity.
Qed.

(** While the vote is open, the same account is taken of it. *)
Lemma open_case : let w := after false switch in
  new_dao dao_at (dao false) /\ timely 0 switch /\ lasting w /\ calm dao_at w /\ last_time switch <= 120 * NANOS /\ open_poll w General 1 (120 * NANOS) /\
  support dao_at w 1 Yes = 60 /\ support dao_at w 1 No = 80.
Proof.
  split; [exact (start_new _)|]. split; [apply timely_check; vm_compute; reflexivity|]. split; [split; vm_compute; reflexivity|].
  split; [apply calm_check; vm_compute; reflexivity|]. split; [vm_compute; discriminate|].
  split.
  { destruct (oget (ct_proposals (w_ctl (after false switch))) 1) as [p|] eqn:E1; [|vm_compute in E1; discriminate].
    destruct (oget (g_polls (w_gov (after false switch))) 1) as [pl|] eqn:E2; [|vm_compute in E2; discriminate].
    exists p, pl, (1100 * NANOS). vm_compute in E1, E2. injection E1 as <-. injection E2 as <-. repeat split. }
  split; vm_compute; reflexivity.
Qed.

(** Proposal 2 passes early and casts a vote on proposal 1 in the name of 13, who is nobody and has never called anybody. *)
Definition forgery : list tx :=
  stakes ++ [propose 100 12 [PUpdateMinimumWeight 9];
             propose 102 11 [PExecuteMsgs [Some (WasmExecute 2 (ToGovernance (GCastVote 1 Yes 13 5000)) [])]]; vote_yes 110 11 2; execute 300 12 2].

Lemma forged_vote : exists (w0 : world unit) ts, let w := world_run idle dao_at w0 ts in
  new_dao dao_at w0 /\ timely 0 ts /\ lasting w /\
  (forall x, In x (w_log w) -> fst x <> 13) /\ last_ballot dao_at (w_log w) 13 1 = None /\
  chosen w 13 1 = Some (outcome_u8 Yes) /\ option_map (fun v => v_amount v) (get_vote (w_gov w) 13 1) = Some 5000.
Proof.
  exists (dao true), forgery. cbn zeta.
  split; [exact (start_new _)|]. split; [apply timely_check; vm_compute; reflexivity|]. split; [split; vm_compute; reflexivity|].
  split.
  { apply Forall_forall. assert (H : forallb (fun x : addr * cosmos_msg => negb (fst x =? 13)) (w_log (world_run idle dao_at (dao true) forgery)) = true) by (vm_compute; reflexivity).
    revert H. generalize (w_log (world_run idle dao_at (dao true) forgery)). intros l H. rewrite forallb_forall in H. apply Forall_forall. intros x Hx.
    specialize (H x Hx). destruct (N.eqb_spec (fst x) 13); [discriminate|assumption]. }
  split; [vm_compute; reflexivity|]. split; vm_compute; reflexivity.
Qed.
