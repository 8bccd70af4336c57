(** C109: decisions about the lists of the treasury take effect. *)
From Verif Require Import Base OMap OMapLemmas Assets PollModel PollSpec FundsModel MemberModel MemberSpec Msgs ControllerModel ControllerSpec
  TreasuryModel TreasurySpec EnterpriseModel OutpostsModel WorldModel WorldSpec WorldExamples LiveSpec EndSpec RipeSpec PurseSpec OrderSpec FacadeSpec BallotSpec RecountSpec MajoritySpec MajorityCases
  ShelfSpec ShelfFacts ShelfCases.

(** A proposal that has passed and says nothing but how to change the lists of the treasury is executed completely: the lists are then as its actions say, one after the other, nothing else of the DAO has changed, and the deposit is handed over. If that can be done, the execution succeeds. *)
Theorem C109_lists_exact : forall X (Out : outside X) A w0 ts w e s id p pl total ab y,
  new_dao A w0 -> tr_admin (w_treasury w0) = a_controller A -> free_calls Out -> w = world_run Out A w0 ts -> lasting w -> treasury_kept A w ->
  ripe Out A w e s id p pl total -> final_status pl total = Passed ab y -> Forall about_lists (pi_actions p) ->
  exists t', relisted (pi_actions p) (w_treasury w) t' /\
  let now := restocked A (judged A w e s id p pl total (Passed ab y)) id (pi_actions p) t' in
  forall w', (exists gas d, go Out A gas w e (JMsg s (ask_resolution A id)) = Ok (w', d)) <->
  exists k, go Out A k now e (JSubs (a_controller A) (handed A p (Passed ab y))) = Ok (w', None).
Proof. exact lists_decision. Qed.
Print Assumptions C109_lists_exact.

Example C109_lists_nonvacuous : exists p pl gas w' d, let w := world_run idle dao_at (dao false) listing in let e := clock 1100 in
  new_dao dao_at (dao false) /\ tr_admin (w_treasury (dao false)) = a_controller dao_at /\ free_calls idle /\ lasting w /\ treasury_kept dao_at w /\
  ripe idle dao_at w e 12 1 p pl 100 /\ final_status pl 100 = Passed 0 60 /\ pi_actions p = new_lists /\ Forall about_lists new_lists /\
  go idle dao_at gas w e (JMsg 12 (ask_resolution dao_at 1)) = Ok (w', d) /\
  lists_then w = ([], [], []) /\ lists_then w' = ([70], [], [66]).
Proof. exact listing_case. Qed.

(** Without a deposit the execution always succeeds, with that one result. *)
Theorem C109_lists_take_effect : forall X (Out : outside X) A w0 ts w e s id p pl total ab y,
  new_dao A w0 -> tr_admin (w_treasury w0) = a_controller A -> free_calls Out -> w = world_run Out A w0 ts -> lasting w -> treasury_kept A w ->
  ripe Out A w e s id p pl total -> final_status pl total = Passed ab y -> Forall about_lists (pi_actions p) -> pi_deposit p = None ->
  exists t', relisted (pi_actions p) (w_treasury w) t' /\
  let now := restocked A (judged A w e s id p pl total (Passed ab y)) id (pi_actions p) t' in
  (exists gas d, go Out A gas w e (JMsg s (ask_resolution A id)) = Ok (now, d)) /\
  (forall gas w' d, go Out A gas w e (JMsg s (ask_resolution A id)) = Ok (w', d) -> w' = now).
Proof. exact lists_effect. Qed.
Print Assumptions C109_lists_take_effect.

Example C109_effect_nonvacuous : exists p pl, let w := world_run idle dao_at (dao false) free_listing in
  new_dao dao_at (dao false) /\ tr_admin (w_treasury (dao false)) = a_controller dao_at /\ free_calls idle /\ lasting w /\ treasury_kept dao_at w /\
  ripe idle dao_at w (clock 2200) 12 2 p pl 100 /\ final_status pl 100 = Passed 0 60 /\ pi_actions p = new_lists /\ Forall about_lists new_lists /\ pi_deposit p = None.
Proof. exact free_listing_case. Qed.

(** So a group that weighs enough at the end of the vote decides what is on the lists, whatever the others say and whatever happens after the end. *)
Theorem C109_majority_lists : forall X (Out : outside X) A birth w0 before later id ends p pl pl' us e s,
  new_dao A w0 -> tr_admin (w_treasury w0) = a_controller A -> free_calls Out -> created_by birth (w_member w0) -> created_by birth (w_council w0) -> timely birth (before ++ later) ->
  let w := world_run Out A w0 before in let w' := world_run Out A w0 (before ++ later) in
  lasting w -> lasting w' -> calm A w' -> treasury_kept A w' ->
  closing w General id ends -> oget (g_polls (w_gov w)) id = Some pl -> seconds_before ends before -> all_after ends later ->
  stand_for A w id [Yes] us -> winning w pl us ->
  oget (ct_proposals (w_ctl w')) id = Some p -> pi_executed_at p = None -> oget (g_polls (w_gov w')) id = Some pl' ->
  ends <= e_time e -> restricted_by Out A w' (a_enterprise A) s = Ok false ->
  Forall about_lists (pi_actions p) ->
  let v := Passed 0 (support A w id Yes) in
  exists t', relisted (pi_actions p) (w_treasury w') t' /\
  let now := restocked A (judged A w' e s id p pl' (weight_now w General) v) id (pi_actions p) t' in
  forall w'', (exists gas d, go Out A gas w' e (JMsg s (ask_resolution A id)) = Ok (w'', d)) <->
   exists k, go Out A k now e (JSubs (a_controller A) (handed A p v)) = Ok (w'', None).
Proof. exact lists_majority. Qed.
Print Assumptions C109_majority_lists.

Example C109_majority_nonvacuous : exists p, let w' := world_run idle dao_at (dao false) (listing ++ turned) in
  new_dao dao_at (dao false) /\ tr_admin (w_treasury (dao false)) = a_controller dao_at /\ free_calls idle /\ created_by (50 * NANOS) (w_member (dao false)) /\ created_by (50 * NANOS) (w_council (dao false)) /\
  timely (50 * NANOS) (listing ++ turned) /\ lasting (runs listing) /\ lasting w' /\ calm dao_at w' /\ treasury_kept dao_at w' /\
  closing (runs listing) General 1 (1100 * NANOS) /\ oget (g_polls (w_gov (runs listing))) 1 = Some (open_poll_of listing) /\
  seconds_before (1100 * NANOS) listing /\ all_after (1100 * NANOS) turned /\
  stand_for dao_at (runs listing) 1 [Yes] [11] /\ winning (runs listing) (open_poll_of listing) [11] /\
  oget (ct_proposals (w_ctl w')) 1 = Some p /\ pi_executed_at p = None /\ oget (g_polls (w_gov w')) 1 = Some (open_poll_of listing) /\
  restricted_by idle dao_at w' 1 13 = Ok false /\ pi_actions p = new_lists /\ Forall about_lists new_lists.
Proof. exact listing_majority_case. Qed.

(** It is different with cw1155 assets. A proposal to list a collection and such an asset may be made, passes and is marked as executed, but the treasury is as before: not even the collection is listed. *)
Theorem C109_cw1155_refuted : exists ts p pl w', let w := world_run idle dao_at (dao false) ts in let e := clock 1100 in
  new_dao dao_at (dao false) /\ tr_admin (w_treasury (dao false)) = a_controller dao_at /\ free_calls idle /\ lasting w /\ treasury_kept dao_at w /\
  ripe idle dao_at w e 12 1 p pl 100 /\ final_status pl 100 = Passed 0 60 /\
  pi_actions p = [PUpdateNfts None [66] []; PUpdateAssets None [Cw1155 55 1] []] /\
  go idle dao_at 60 w e (JMsg 12 (ask_resolution dao_at 1)) = Ok (w', None) /\
  option_map p_status (oget (g_polls (w_gov w')) 1) = Some (Passed 0 60) /\ option_map pi_executed_at (oget (ct_proposals (w_ctl w')) 1) = Some (Some e) /\
  w_treasury w' = w_treasury (dao false) /\ lists_then w' = ([], [], []).
Proof. exact cw1155_refuted. Qed.
Print Assumptions C109_cw1155_refuted.
