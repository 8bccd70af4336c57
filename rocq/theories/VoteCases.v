(** Cases of voting. *)
From Verif Require Import Base OMap OMapLemmas Assets PollModel PollSpec FundsModel MemberModel MemberSpec Msgs ControllerModel ControllerSpec
  TreasuryModel EnterpriseModel OutpostsModel WorldModel WorldSpec WorldRun WorldExamples WorldCases LiveSpec LiveCases VoteSpec.

(** 11 proposes something; so does 21, of the council. *)
Definition before_vote : list tx :=
  stakes ++ [propose 100 11 [PUpdateMinimumWeight 5]; to_ctl 101 21 [] (CCreateCouncilProposal [PUpdateMetadata (mk_metadata_update (Change 13) NoChange NoChange NoChange NoChange NoChange NoChange)])].

Lemma voting_case : let w := after true before_vote in
  new_dao dao_at (dao true) /\ free_calls idle /\ timely 0 before_vote /\ lasting w /\ calm dao_at w /\ last_time before_vote <= e_time (clock 110) /\
  clock_has_room w (clock 110) /\
  may_vote idle dao_at w General (e_time (clock 110)) 11 1 /\ vote_weight w General 11 = 60 /\
  may_vote idle dao_at w Council (e_time (clock 110)) 22 2 /\ vote_weight w Council 22 = 1 /\
  ~ may_vote idle dao_at w General (e_time (clock 110)) 22 1 /\ ~ may_vote idle dao_at w General (e_time (clock 1100)) 11 1 /\
  match go idle dao_at 4 w (clock 110) (JMsg 11 (voting dao_at General 1 Yes)) with
  | Ok (w', _) => get_vote (w_gov w') 11 1 = Some (mk_vote 1 11 (outcome_u8 Yes) 60) /\
      option_map pi_earliest (oget (ct_proposals (w_ctl w')) 1) = Some (Some (210 * NANOS))
  | Err _ => False
  end.
Proof.
  split; [exact (start_new _)|]. split; [exact idle_free|]. split; [apply timely_check; vm_compute; reflexivity|].
  split; [split; vm_compute; reflexivity|]. split; [apply calm_check; vm_compute; reflexivity|]. split; [vm_compute; discriminate|].
  split; [vm_compute; reflexivity|].
  split. { split; [discriminate|]. split; [vm_compute; reflexivity|]. split; [vm_compute; discriminate|]. split; [apply open_check; vm_compute; split; reflexivity|intros K; discriminate K]. }
  split; [vm_compute; reflexivity|].
  split. { split; [discriminate|]. split; [vm_compute; reflexivity|]. split; [vm_compute; discriminate|]. split; [apply open_check; vm_compute; split; reflexivity|]. intros _. vm_compute. discriminate. }
  split; [vm_compute; reflexivity|].
  split. { intros (_ & _ & H & _). apply H. vm_compute. reflexivity. }
  split.
  { intros (_ & _ & _ & (p & pl & ends & _ & _ & Hpl & Hs & Hlt) & _).
    assert (E : option_map p_status (oget (g_polls (w_gov (after true before_vote))) 1) = Some (InProgress (1100 * NANOS))) by (vm_compute; reflexivity).
    rewrite Hpl in E. cbn [option_map] in E. rewrite Hs in E. assert (E2 : ends = 1100 * NANOS) by congruence. rewrite E2 in Hlt. revert Hlt. vm_compute. discriminate. }
  vm_compute. split; reflexivity.
Qed.

(** At the end of time: the poll is open for another minute, but the time before which an early execution is not allowed does not exist. *)
Definition end_of_time : list tx :=
  [stake 18446743000 11 60; stake 18446743001 12 40; propose 18446743050 11 [PUpdateMinimumWeight 5]].
Lemma no_room : exists (A : addrs) (w0 : world unit) ts e u id,
  let w := world_run idle A w0 ts in
  new_dao A w0 /\ free_calls idle /\ timely 0 ts /\ lasting w /\ calm A w /\ last_time ts <= e_time e /\
  may_vote idle A w General (e_time e) u id /\
  forall gas r, go idle A gas w e (JMsg u (voting A General id Yes)) <> Ok r.
Proof.
  exists dao_at, (dao true), end_of_time, (clock 18446743990), 11, 1. cbn zeta.
  split; [exact (start_new _)|]. split; [exact idle_free|]. split; [apply timely_check; vm_compute; reflexivity|].
  split; [split; vm_compute; reflexivity|]. split; [apply calm_check; vm_compute; reflexivity|]. split; [vm_compute; discriminate|].
  split. { split; [discriminate|]. split; [vm_compute; reflexivity|]. split; [vm_compute; discriminate|]. split; [apply open_check; vm_compute; split; reflexivity|intros K; discriminate K]. }
  intros gas r.
  assert (H : is_ok (go idle dao_at gas (world_run idle dao_at (dao true) end_of_time) (clock 18446743990) (JMsg 11 (voting dao_at General 1 Yes))) = false).
  { do 12 (destruct gas as [|gas]; [vm_compute; reflexivity|]). vm_compute. reflexivity. }
  intros K. rewrite K in H. discriminate.
Qed.
