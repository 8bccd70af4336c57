(** C87: proposals can be made exactly when they are in order, and their votes last as configured. *)
From Verif Require Import Base OMap OMapLemmas Assets PollModel FundsModel MemberModel MemberSpec Msgs ControllerModel ControllerSpec
  TreasuryModel EnterpriseModel OutpostsModel WorldModel WorldSpec WorldExamples LiveSpec VoteSpec ProposeSpec ProposeFacts ProposeLock ProposeCases.

(** A proposal can be made exactly when it is in order (deposit or weight, valid actions, an end of the vote): nothing that ever happened to the DAO can prevent it otherwise. *)
Theorem C87_proposing_exact : forall X (Out : outside X) A w0 ts w e gas y u actions,
  new_dao A w0 -> free_calls Out -> w = world_run Out A w0 ts -> w_upgraded w = false -> N.of_nat (length (w_log w)) + 1 < 2 ^ 64 ->
  u <> 0 -> (4 <= gas)%nat ->
  (exists r, go Out A gas w e (JMsg (caller y u) (proposing A y u actions)) = Ok r) <->
  exists x, x_pay Out (w_ext w) (caller y u) (a_controller A) (coins_of y) = Ok x /\ can_propose Out A (set_ext w x) y (e_time e) u actions.
Proof. exact proposing_exact. Qed.
Print Assumptions C87_proposing_exact.

Example C87_proposing_nonvacuous : let w := after true stakes in
  new_dao dao_at (dao true) /\ new_dao dao_at token_dao /\ free_calls idle /\ w_upgraded w = false /\ N.of_nat (length (w_log w)) + 1 < 2 ^ 64 /\
  can_propose idle dao_at w (WithCoins None [(71, 3); (70, 25)]) (e_time (clock 100)) 13 [a_change] /\
  can_propose idle dao_at token_dao (WithTokens 90 20 (Some 12)) (e_time (clock 100)) 13 [a_change] /\
  can_propose idle dao_at w (InCouncil []) (e_time (clock 100)) 21 [a_change] /\
  ~ can_propose idle dao_at w (WithCoins None [(71, 30); (70, 19)]) (e_time (clock 100)) 11 [a_change] /\
  ~ can_propose idle dao_at w (InCouncil []) (e_time (clock 100)) 11 [a_change] /\
  lasts_till (go idle dao_at 4 w (clock 100) (JMsg 13 (proposing dao_at (WithCoins None [(71, 3); (70, 25)]) 13 [a_change]))) 1 (1100 * NANOS) /\
  lasts_till (go idle dao_at 4 token_dao (clock 100) (JMsg 90 (proposing dao_at (WithTokens 90 20 (Some 12)) 13 [a_change]))) 1 (1100 * NANOS) /\
  lasts_till (go idle dao_at 4 w (clock 100) (JMsg 21 (proposing dao_at (InCouncil []) 21 [a_change]))) 1 (1100 * NANOS) /\
  e_time (clock 100) + gc_vote_duration (ct_config (w_ctl w)) * 10 ^ 9 < 2 ^ 64.
Proof. exact proposing_case. Qed.

(** It then has the next number, an open vote under the rules in force, its deposit recorded, and nothing else changes anywhere. *)
Theorem C87_proposing_makes : forall X (Out : outside X) A w0 ts w e gas y u actions w' d,
  new_dao A w0 -> free_calls Out -> w = world_run Out A w0 ts -> w_upgraded w = false -> N.of_nat (length (w_log w)) + 1 < 2 ^ 64 ->
  u <> 0 -> (4 <= gas)%nat -> go Out A gas w e (JMsg (caller y u) (proposing A y u actions)) = Ok (w', d) ->
  d = None /\ exists x, x_pay Out (w_ext w) (caller y u) (a_controller A) (coins_of y) = Ok x /\ proposed A y w x w' (e_time e) u actions.
Proof. exact proposing_makes. Qed.
Print Assumptions C87_proposing_makes.

(** As long as that moment exists in the 64-bit clock, the vote lasts as long as configured. *)
Theorem C87_vote_length : forall X (Out : outside X) A w0 ts w now,
  new_dao A w0 -> w = world_run Out A w0 ts -> now + gc_vote_duration (ct_config (w_ctl w)) * 10 ^ 9 < 2 ^ 64 ->
  0 < span w /\ span w = gc_vote_duration (ct_config (w_ctl w)) * 10 ^ 9.
Proof. exact configured_span. Qed.
Print Assumptions C87_vote_length.

(** But the duration of votes is only checked to be nonzero: the members can set one whose nanoseconds are a multiple of 2^64. *)
Theorem C87_always_possible_refuted : exists (A : addrs) (w0 : world unit) ts,
  let w := world_run idle A w0 ts in
  new_dao A w0 /\ free_calls idle /\ timely 0 ts /\ lasting w /\ calm A w /\ dead w /\ g_count (w_gov w) = 1 /\ gc_vote_duration (ct_config (w_ctl w)) = 2 ^ 55.
Proof. exact lock_case. Qed.
Print Assumptions C87_always_possible_refuted.

(** After that nothing can ever be proposed again, and the rules stay as they are for good. *)
Theorem C87_locked_forever : forall X (Out : outside X) A w0 ts later w w',
  new_dao A w0 -> w = world_run Out A w0 ts -> w' = world_run Out A w later -> lasting w' -> dead w -> dead w' /\ halted w w'.
Proof. exact dead_forever. Qed.
Print Assumptions C87_locked_forever.

(** And a duration of 584 years and a half makes votes that last less than a second. *)
Theorem C87_configured_length_refuted : exists (A : addrs) (w0 : world unit) ts e w' pl,
  let w := world_run idle A w0 ts in
  new_dao A w0 /\ free_calls idle /\ timely 0 (ts ++ [mk_tx 60 e 11 (proposing A (WithCoins None [(70, 25)]) 11 [a_change])]) /\ lasting w /\ calm A w /\
  gc_vote_duration (ct_config (w_ctl w)) = 18446744074 /\
  go idle A 4 w e (JMsg 11 (proposing A (WithCoins None [(70, 25)]) 11 [a_change])) = Ok (w', None) /\
  oget (g_polls (w_gov w')) 2 = Some pl /\ p_ends_at pl < p_started_at pl + 10 ^ 9.
Proof. exact blink_case. Qed.
Print Assumptions C87_configured_length_refuted.
