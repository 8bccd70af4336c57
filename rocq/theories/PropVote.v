(** C85: members can vote as long as a poll is open, and exactly then. *)
From Verif Require Import Base OMap OMapLemmas Assets PollModel FundsModel MemberModel MemberSpec Msgs ControllerModel ControllerSpec
  TreasuryModel EnterpriseModel OutpostsModel WorldModel WorldSpec WorldExamples LiveSpec VoteSpec VoteFacts VoteCases.

(** A vote succeeds exactly when the voter is not restricted, has weight and the poll is open: nothing that ever happened to the DAO can prevent it. *)
Theorem C85_voting_exact : forall X (Out : outside X) A w0 ts w e gas t u id o,
  new_dao A w0 -> free_calls Out -> w = world_run Out A w0 ts -> timely 0 ts -> lasting w -> calm A w -> last_time ts <= e_time e ->
  u <> 0 -> (4 <= gas)%nat -> (t = General -> clock_has_room w e) ->
  (exists r, go Out A gas w e (JMsg u (voting A t id o)) = Ok r) <-> may_vote Out A w t (e_time e) u id.
Proof. exact voting_exact. Qed.
Print Assumptions C85_voting_exact.

Example C85_voting_nonvacuous : let w := after true before_vote in
  new_dao dao_at (dao true) /\ free_calls idle /\ timely 0 before_vote /\ lasting w /\ calm dao_at w /\ last_time before_vote <= e_time (clock 110) /\
  clock_has_room w (clock 110) /\
  may_vote idle dao_at w General (e_time (clock 110)) 11 1 /\ vote_weight w General 11 = 60 /\
  may_vote idle dao_at w Council (e_time (clock 110)) 22 2 /\ vote_weight w Council 22 = 1 /\
  ~ may_vote idle dao_at w General (e_time (clock 110)) 22 1 /\ ~ may_vote idle dao_at w General (e_time (clock 1100)) 11 1 /\
  match go idle dao_at 4 w (clock 110) (JMsg 11 (voting dao_at General 1 Yes)) with
  | Ok (w', _) => get_vote (w_gov w') 11 1 = Some (mk_vote 1 11 (outcome_u8 Yes) 60) /\
      option_map pi_earliest (oget (ct_proposals (w_ctl w')) 1) = Some (Some (210 * NANOS))
  | Err _ => False
  end.
Proof. exact voting_case. Qed.

(** It is then counted with the weight of the voter, and nothing else changes anywhere. *)
Theorem C85_voting_counts : forall X (Out : outside X) A w0 ts w e gas t u id o w' d,
  new_dao A w0 -> free_calls Out -> w = world_run Out A w0 ts -> timely 0 ts -> lasting w -> calm A w -> last_time ts <= e_time e ->
  u <> 0 -> (4 <= gas)%nat -> (t = General -> clock_has_room w e) ->
  go Out A gas w e (JMsg u (voting A t id o)) = Ok (w', d) -> d = None /\ counted A t w w' u id o (vote_weight w t u).
Proof. exact voting_counts. Qed.
Print Assumptions C85_voting_counts.

(** Without moments left in the clock it is false. *)
Theorem C85_no_room_refuted : exists (A : addrs) (w0 : world unit) ts e u id,
  let w := world_run idle A w0 ts in
  new_dao A w0 /\ free_calls idle /\ timely 0 ts /\ lasting w /\ calm A w /\ last_time ts <= e_time e /\
  may_vote idle A w General (e_time e) u id /\
  forall gas r, go idle A gas w e (JMsg u (voting A General id Yes)) <> Ok r.
Proof. exact no_room. Qed.
Print Assumptions C85_no_room_refuted.
