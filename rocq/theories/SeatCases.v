(** Cases of votes in the council. *)
From Verif Require Import Base OMap OMapLemmas Assets PollModel PollSpec FundsModel MemberModel MemberSpec Msgs ControllerModel ControllerSpec
  TreasuryModel EnterpriseModel OutpostsModel WorldModel WorldSpec WorldRun WorldExamples WorldCases LiveSpec LiveCases EndSpec PurseSpec BallotSpec BallotFacts
  RecountSpec OrderSpec AccessSpec SeatSpec.

(** The council votes on a new name: 21 and 22 for it, 23 against. Then 23 stakes 50 as a member of the DAO. After the end it is executed. *)
Definition seated_vote (t : N) (s : addr) (o : outcome) : tx := to_ctl t s [] (CCastCouncilVote 1 o).
Definition session : list tx :=
  stakes ++ [to_ctl 100 21 [] (CCreateCouncilProposal [PUpdateMetadata (mk_metadata_update (Change 13) NoChange NoChange NoChange NoChange NoChange NoChange)]);
             seated_vote 110 21 Yes; seated_vote 111 22 Yes; seated_vote 112 23 No].
Definition session_stake : list tx := session ++ [stake 120 23 50].
Definition session_later : list tx := [execute 1300 13 1].

Lemma in_place_dao early : in_place dao_at (dao early).
Proof. destruct early; constructor; vm_compute; reflexivity. Qed.
Lemma told_check A us (l : list (addr * cosmos_msg)) : forallb (fun u => forallb (fun x => negb (is_some (told A u x))) l) us = true ->
  forall u x, In u us -> In x l -> told A u x = None.
Proof.
  intros H u x Hu Hx. rewrite forallb_forall in H. specialize (H u Hu). rewrite forallb_forall in H. specialize (H x Hx).
  destruct (told A u x); [discriminate|reflexivity].
Qed.
Definition gives_more (c : addr) (x : addr * cosmos_msg) : bool :=
  match snd x with
  | WasmExecute to (ToMembership (MultisigMsg (MSetMembers l))) _ | WasmExecute to (ToMembership (MultisigMsg (MUpdateMembers l))) _ =>
      (to =? c) && negb (forallb (fun p => snd p <=? 1) l)
  | _ => false
  end.
Lemma more_check l : forallb (fun p : N * N => snd p <=? 1) l = true -> Forall (fun p => snd p <= 1) l.
Proof. intros H. apply Forall_forall. intros p Hp. rewrite forallb_forall in H. apply N.leb_le, H, Hp. Qed.
Lemma one_check {X} A (w0 w : world X) : (exists q, w_council w0 = MMultisig q) -> (forall u, weight_of (w_council w0) u <= 1) ->
  existsb (gives_more (a_council A)) (w_log w) = false -> one_each A w0 w.
Proof.
  intros H1 H2 E. split; [exact H1|]. split; [exact H2|]. intros s l coins H. apply more_check.
  destruct (forallb (fun p => snd p <=? 1) l) eqn:F; [reflexivity|].
  rewrite (proj2 (existsb_exists (gives_more (a_council A)) (w_log w))) in E; [discriminate|].
  destruct H as [H|H]; eexists; (split; [exact H|]); unfold gives_more; cbn [snd]; rewrite N.eqb_refl, F; reflexivity.
Qed.
Lemma small_check (m : omap N) : forallb (fun p => snd p <=? 1) (elems m) = true -> forall u, ogetN m u <= 1.
Proof.
  intros H u. unfold ogetN. destruct (oget m u) as [n|] eqn:E; [|cbn; discriminate]. apply oget_In in E. rewrite forallb_forall in H. apply (N.leb_le n 1), (H _ E).
Qed.
Lemma council_ones early u : weight_of (w_council (dao early)) u <= 1.
Proof. apply small_check. destruct early; vm_compute; reflexivity. Qed.

Lemma session_case : let w := after false session in
  new_dao dao_at (dao false) /\ in_place dao_at (dao false) /\ timely 0 session /\ lasting w /\ unforged dao_at w /\ last_time session <= 115 * NANOS /\
  open_poll w Council 1 (115 * NANOS) /\ one_each dao_at (dao false) w /\
  supporters dao_at (w_log w) 1 Yes = [22; 21] /\ supporters dao_at (w_log w) 1 No = [23] /\
  (forall u x, In u (supporters dao_at (w_log w) 1 Yes) -> In x (w_log w) -> told dao_at u x = None) /\
  tally (w_gov w) 1 Yes = 2 /\ weight_of (w_member w) 22 = 0.
Proof.
  cbn zeta. unfold after.
  assert (N : new_dao dao_at (dao false)) by exact (start_new _).
  assert (C : calm dao_at (world_run idle dao_at (dao false) session)) by (apply calm_check; vm_compute; reflexivity).
  assert (L : lasting (world_run idle dao_at (dao false) session)) by (split; vm_compute; reflexivity).
  assert (T : timely 0 session) by (apply timely_check; vm_compute; reflexivity).
  assert (U := calm_unforged _ idle dao_at (dao false) _ N T L C).
  split; [exact N|]. split; [apply in_place_dao|]. split; [exact T|]. split; [exact L|]. split; [exact U|]. split; [vm_compute; discriminate|].
  split; [apply open_check; vm_compute; split; reflexivity|].
  split; [apply one_check; [eexists; vm_compute; reflexivity|apply council_ones|vm_compute; reflexivity]|].
  split; [vm_compute; reflexivity|]. split; [vm_compute; reflexivity|].
  split; [apply told_check; vm_compute; reflexivity|]. split; vm_compute; reflexivity.
Qed.

(** The stake of 23 turns a vote of 1 into one of 50. *)
Lemma session_stake_case : let w := after false session_stake in
  new_dao dao_at (dao false) /\ timely 0 session_stake /\ lasting w /\ unforged dao_at w /\ last_time session_stake <= 120 * NANOS /\
  open_poll w Council 1 (120 * NANOS) /\
  (exists v, get_vote (w_gov w) 23 1 = Some v /\ v_amount v = 50) /\
  map (fun u => counts dao_at (weight_of (w_member (dao false))) (weight_of (w_council (dao false))) (w_log w) u 1) [21; 22; 23; 11] =
    [Some 1; Some 1; Some 50; None] /\
  backing dao_at (dao false) w 1 Yes = 2 /\ backing dao_at (dao false) w 1 No = 50.
Proof.
  cbn zeta. unfold after.
  assert (N : new_dao dao_at (dao false)) by exact (start_new _).
  assert (C : calm dao_at (world_run idle dao_at (dao false) session_stake)) by (apply calm_check; vm_compute; reflexivity).
  assert (L : lasting (world_run idle dao_at (dao false) session_stake)) by (split; vm_compute; reflexivity).
  assert (T : timely 0 session_stake) by (apply timely_check; vm_compute; reflexivity).
  assert (U := calm_unforged _ idle dao_at (dao false) _ N T L C).
  split; [exact N|]. split; [exact T|]. split; [exact L|]. split; [exact U|]. split; [vm_compute; discriminate|].
  split; [apply open_check; vm_compute; split; reflexivity|].
  split; [apply some_case; vm_compute; reflexivity|].
  split; [vm_compute; reflexivity|]. split; vm_compute; reflexivity.
Qed.

(** So one of three stops what two wanted. *)
Lemma session_end : let w := after false session_stake in let w' := after false (session_stake ++ session_later) in
  new_dao dao_at (dao false) /\ created_by (50 * NANOS) (w_member (dao false)) /\ created_by (50 * NANOS) (w_council (dao false)) /\
  timely (50 * NANOS) (session_stake ++ session_later) /\ lasting w /\ lasting w' /\ calm dao_at w' /\
  closing w Council 1 (1100 * NANOS) /\ seconds_before (1100 * NANOS) session_stake /\ all_after (1100 * NANOS) session_later /\
  share_fits (all_backing dao_at (dao false) w 1) (weight_now w Council) /\ weight_now w Council = 3 /\
  backing dao_at (dao false) w 1 Yes = 2 /\ backing dao_at (dao false) w 1 No = 50 /\
  option_map p_status (oget (g_polls (w_gov w')) 1) = Some (Rejected IsRejectingOutcome) /\
  option_map p_status (oget (g_polls (w_gov (after false (session ++ session_later)))) 1) = Some (Passed 0 2).
Proof.
  cbn zeta. unfold after.
  split; [exact (start_new _)|]. split; [apply both_created|]. split; [apply both_created|].
  split; [apply timely_check; vm_compute; reflexivity|].
  split; [split; vm_compute; reflexivity|]. split; [split; vm_compute; reflexivity|]. split; [apply calm_check; vm_compute; reflexivity|].
  split.
  { destruct (oget (ct_proposals (w_ctl (world_run idle dao_at (dao false) session_stake))) 1) as [p|] eqn:E1; [|vm_compute in E1; discriminate].
    destruct (oget (g_polls (w_gov (world_run idle dao_at (dao false) session_stake))) 1) as [pl|] eqn:E2; [|vm_compute in E2; discriminate].
    exists p, pl. vm_compute in E1, E2. injection E1 as <-. injection E2 as <-. repeat split. }
  split; [repeat constructor|]. split; [repeat (constructor; [vm_compute; discriminate|]); constructor|].
  split; [split; vm_compute; reflexivity|]. split; [vm_compute; reflexivity|]. split; [vm_compute; reflexivity|]. split; [vm_compute; reflexivity|].
  split; vm_compute; reflexivity.
Qed.

(** 21 votes for the proposal and is then replaced in the council by 24. The vote still counts: with that of 22 alone, of three, it decides. *)
Definition dismissal : list tx :=
  stakes ++ [to_ctl 100 21 [] (CCreateCouncilProposal [PUpdateMetadata (mk_metadata_update (Change 13) NoChange NoChange NoChange NoChange NoChange NoChange)]);
             seated_vote 110 21 Yes; propose 120 11 [PUpdateCouncil (Some (mk_council_spec [22; 23; 24] (percent 50) (percent 50) (Some [TUpdateMetadata])))];
             vote_yes 130 11 2; execute 300 11 2].
Definition dismissal_later : list tx := [seated_vote 350 22 Yes; execute 360 22 1].
Lemma dismissed_vote : exists (A : addrs) (w0 : world unit) before later id u v, let w := world_run idle A w0 before in let w' := world_run idle A w0 (before ++ later) in
  new_dao A w0 /\ timely 0 (before ++ later) /\ lasting w' /\ calm A w' /\ open_poll w Council id (last_time before) /\
  weight_of (w_council w) u = 0 /\ get_vote (w_gov w) u id = Some v /\ v_amount v = 1 /\
  total_now (w_council w') = 3 /\ filter (fun x => 0 <? weight_of (w_council w') x) (supporters A (w_log w') id Yes) = [22] /\
  option_map p_status (oget (g_polls (w_gov w')) id) = Some (Passed (outcome_u8 Yes) 2) /\ action_runs A w' id = 1.
Proof.
  exists dao_at, (dao true), dismissal, dismissal_later, 1, 21, (mk_vote 1 21 (outcome_u8 Yes) 1). cbn zeta.
  split; [exact (start_new _)|]. split; [apply timely_check; vm_compute; reflexivity|]. split; [split; vm_compute; reflexivity|].
  split; [apply calm_check; vm_compute; reflexivity|]. split; [apply open_check; vm_compute; split; reflexivity|].
  split; [vm_compute; reflexivity|]. split; [vm_compute; reflexivity|]. split; [vm_compute; reflexivity|]. split; [vm_compute; reflexivity|].
  split; [vm_compute; reflexivity|]. split; vm_compute; reflexivity.
Qed.
