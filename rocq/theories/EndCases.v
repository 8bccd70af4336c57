(** Cases of votes and their ends. *)
From Verif Require Import Base OMap OMapLemmas Assets PollModel PollSpec FundsModel MemberModel MemberSpec Msgs ControllerModel ControllerSpec
  TreasuryModel EnterpriseModel OutpostsModel WorldModel WorldSpec WorldRun WorldExamples WorldCases LiveSpec LiveCases EndSpec.

(** 12 votes yes with 40 of 100 and then doubles the stake; 11 does not vote. After the end 11 adds a fortune and 12 leaves. *)
Definition until_end : list tx := stakes ++ [propose 100 11 [PUpdateMinimumWeight 5]; vote_yes 110 12 1; stake 120 12 40].
Definition after_end : list tx := [stake 1100 11 100000; unstake 1101 12 80; execute 1300 13 1].

Lemma ends_case : let w := after false until_end in let w' := after false (until_end ++ after_end) in
  new_dao dao_at (dao false) /\ created_by (50 * NANOS) (w_member (dao false)) /\ created_by (50 * NANOS) (w_council (dao false)) /\
  timely (50 * NANOS) (until_end ++ after_end) /\ lasting w' /\ calm dao_at w' /\
  closing w General 1 (1100 * NANOS) /\ all_before (1100 * NANOS) until_end /\ all_after (1100 * NANOS) after_end /\ seconds_before (1100 * NANOS) until_end /\
  turnout (w_gov w) 1 = 80 /\ weight_then w General (1100 * NANOS) = 140 /\ share_fits 80 140 /\
  option_map p_status (oget (g_polls (w_gov w')) 1) = Some (Passed 0 80) /\ weight_of (w_member w') 12 = 0.
Proof.
  split; [exact (start_new _)|]. split; [apply both_created|]. split; [apply both_created|].
  split; [apply timely_check; vm_compute; reflexivity|].
  split; [split; vm_compute; reflexivity|]. split; [apply calm_check; vm_compute; reflexivity|].
  split.
  { destruct (oget (ct_proposals (w_ctl (after false until_end))) 1) as [p|] eqn:E1; [|vm_compute in E1; discriminate].
    destruct (oget (g_polls (w_gov (after false until_end))) 1) as [pl|] eqn:E2; [|vm_compute in E2; discriminate].
    exists p, pl. vm_compute in E1, E2. injection E1 as <-. injection E2 as <-. repeat split. }
  split; [repeat constructor|]. split; [repeat (constructor; [vm_compute; discriminate|]); constructor|]. split; [repeat constructor|].
  split; [vm_compute; reflexivity|]. split; [vm_compute; reflexivity|]. split; [split; vm_compute; reflexivity|]. split; vm_compute; reflexivity.
Qed.

(** Half a second before the end, which falls into the same second, 13 joins and votes: 30 votes count, against the total of 100
    without them. So the quorum of 30% is reached, although 13 holds less than a quarter of the weight. *)
Definition half : N := NANOS / 2.
Definition mid (s : N) : env := mk_env (s * NANOS + half) s.
Definition latecomer : list tx :=
  stakes ++ [mk_tx 60 (mid 100) 11 (WasmExecute 3 (ToController (CCreateProposal [PUpdateMinimumWeight 5] None)) [(70, 25)]); stake 1100 13 30; vote_yes 1100 13 1].
Definition latecomer_later : list tx := [execute 1101 13 1].

Lemma late_votes : exists (w0 : world unit) birth before later ends,
  let w := world_run idle dao_at w0 before in let w' := world_run idle dao_at w0 (before ++ later) in
  new_dao dao_at w0 /\ created_by birth (w_member w0) /\ created_by birth (w_council w0) /\ timely birth (before ++ later) /\ lasting w' /\ calm dao_at w' /\
  closing w General 1 ends /\ all_before ends before /\ all_after ends later /\
  weight_then w General ends < weight_now w General /\
  exists pl pl', oget (g_polls (w_gov w)) 1 = Some pl /\ oget (g_polls (w_gov w')) 1 = Some pl' /\
    ruled (w_gov w) 1 pl (weight_now w General) (Rejected QuorumNotReached) /\ p_status pl' = Passed 0 30.
Proof.
  exists (dao false), (50 * NANOS), latecomer, latecomer_later, (1100 * NANOS + half). cbn zeta.
  split; [exact (start_new _)|]. split; [apply both_created|]. split; [apply both_created|].
  split; [apply timely_check; vm_compute; reflexivity|].
  split; [split; vm_compute; reflexivity|]. split; [apply calm_check; vm_compute; reflexivity|].
  split.
  { destruct (oget (ct_proposals (w_ctl (after false latecomer))) 1) as [p|] eqn:E1; [|vm_compute in E1; discriminate].
    destruct (oget (g_polls (w_gov (after false latecomer))) 1) as [pl|] eqn:E2; [|vm_compute in E2; discriminate].
    exists p, pl. vm_compute in E1, E2. injection E1 as <-. injection E2 as <-. repeat split. }
  split; [repeat (constructor; [vm_compute; reflexivity|]); constructor|]. split; [repeat (constructor; [vm_compute; discriminate|]); constructor|].
  split; [vm_compute; reflexivity|].
  eexists. eexists. split; [vm_compute; reflexivity|]. split; [vm_compute; reflexivity|]. split; [|reflexivity].
  unfold ruled. apply V_quorum. intros [(_ & H)|(H & _)]; [vm_compute in H; apply H; reflexivity|vm_compute in H; discriminate].
Qed.

(** And even more votes than the total there is said to be. *)
Definition flood : list tx :=
  stakes ++ [mk_tx 60 (mid 100) 11 (WasmExecute 3 (ToController (CCreateProposal [PUpdateMinimumWeight 5] None)) [(70, 25)]); stake 1100 13 300; vote_yes 1100 13 1].
Lemma flooded : let w := after false flood in closing w General 1 (1100 * NANOS + half) /\
  all_before (1100 * NANOS + half) flood /\ turnout (w_gov w) 1 = 300 /\ weight_then w General (1100 * NANOS + half) = 100.
Proof.
  split.
  { destruct (oget (ct_proposals (w_ctl (after false flood))) 1) as [p|] eqn:E1; [|vm_compute in E1; discriminate].
    destruct (oget (g_polls (w_gov (after false flood))) 1) as [pl|] eqn:E2; [|vm_compute in E2; discriminate].
    exists p, pl. vm_compute in E1, E2. injection E1 as <-. injection E2 as <-. repeat split. }
  split; [repeat (constructor; [vm_compute; reflexivity|]); constructor|]. split; vm_compute; reflexivity.
Qed.
