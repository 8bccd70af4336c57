(** When proposals can be resolved, in every history of a DAO (C39); unlocking periods and votes (C34); past totals (C20). *)
From Verif Require Import Base OMap OMapLemmas Assets PollModel PollSpec FundsModel FundsSpec MemberModel MemberSpec Msgs ControllerModel
  ControllerSpec TreasuryModel EnterpriseModel OutpostsModel WorldModel WorldSpec WorldExamples WorldCases LiveSpec LiveResults LiveCases.

(** C39: every proposal has its poll, and is not protected from execution longer than the poll lasts. *)
Theorem C39_proposal_has_poll : forall X (Out : outside X) A w0 ts id p,
  new_dao A w0 -> lasting (world_run Out A w0 ts) ->
  oget (ct_proposals (w_ctl (world_run Out A w0 ts))) id = Some p ->
  exists pl, oget (g_polls (w_gov (world_run Out A w0 ts))) id = Some pl /\ forall t, pi_earliest p = Some t -> t <= p_ends_at pl.
Proof. exact proposal_has_poll. Qed.
Print Assumptions C39_proposal_has_poll.

(** C39: after the end of the vote, a request of an unrestricted caller succeeds exactly if somebody had weight at the end and the
    verdict can be carried out. *)
Theorem C39_resolvable_exact : forall X (Out : outside X) A w0 ts w e s id p pl w',
  new_dao A w0 -> free_calls Out -> w = world_run Out A w0 ts -> lasting w ->
  oget (ct_proposals (w_ctl w)) id = Some p -> pi_executed_at p = None ->
  oget (g_polls (w_gov w)) id = Some pl -> p_ends_at pl <= e_time e ->
  restricted_by Out A w (a_enterprise A) s = Ok false ->
  forall total v, total = weight_then w (pi_type p) (p_ends_at pl) -> v = final_status pl total ->
  (exists gas d, go Out A gas w e (JMsg s (ask_resolution A id)) = Ok (w', d)) <->
  total <> 0 /\ concluded Out A e id (handed A p v) v (judged A w e s id p pl total v) w'.
Proof. exact resolvable_exact. Qed.
Print Assumptions C39_resolvable_exact.

(** ... So with weight, and if running the actions and handing over the deposit come to an end, the proposal is resolved. *)
Theorem C39_resolvable_with_weight : forall X (Out : outside X) A w0 ts w e s id p pl,
  new_dao A w0 -> free_calls Out -> w = world_run Out A w0 ts -> lasting w ->
  oget (ct_proposals (w_ctl w)) id = Some p -> pi_executed_at p = None ->
  oget (g_polls (w_gov w)) id = Some pl -> p_ends_at pl <= e_time e ->
  restricted_by Out A w (a_enterprise A) s = Ok false ->
  forall total v, total = weight_then w (pi_type p) (p_ends_at pl) -> v = final_status pl total -> total <> 0 ->
  (exists k, go Out A k (judged A w e s id p pl total v) e (JMsg (a_controller A) (run_order A id)) <> Err EGas) ->
  (forall w2, exists k w3, go Out A k w2 e (JSubs (a_controller A) (handed A p v)) = Ok (w3, None)) ->
  exists gas w' d, go Out A gas w e (JMsg s (ask_resolution A id)) = Ok (w', d) /\
    (N.of_nat (length (w_log w')) < 2 ^ 64 -> exists p', oget (ct_proposals (w_ctl w')) id = Some p' /\ pi_executed_at p' = Some e).
Proof. exact resolvable_with_weight. Qed.
Print Assumptions C39_resolvable_with_weight.

Example C39_resolvable_nonvacuous : exists p pl total v,
  new_dao dao_at (dao false) /\ free_calls idle /\ lasting (after false halfway) /\
  oget (ct_proposals (w_ctl (after false halfway))) 1 = Some p /\ pi_executed_at p = None /\
  oget (g_polls (w_gov (after false halfway))) 1 = Some pl /\ p_ends_at pl <= e_time (clock 1100) /\
  restricted_by idle dao_at (after false halfway) (a_enterprise dao_at) 12 = Ok false /\
  total = weight_then (after false halfway) (pi_type p) (p_ends_at pl) /\ v = final_status pl total /\ total = 105 /\ (exists o y, v = Passed o y) /\
  (exists k, go idle dao_at k (judged dao_at (after false halfway) (clock 1100) 12 1 p pl total v) (clock 1100) (JMsg (a_controller dao_at) (run_order dao_at 1)) <> Err EGas) /\
  (forall w2, exists k w3, go idle dao_at k w2 (clock 1100) (JSubs (a_controller dao_at) (handed dao_at p v)) = Ok (w3, None)) /\
  handed dao_at p v <> [].
Proof. exact resolvable_case. Qed.

(** C39: without weight at the end, it is never resolved, whatever happens later: *)
Theorem C39_stuck_forever : forall X (Out : outside X) A birth w0 ts later w id p pl,
  new_dao A w0 -> created_by birth (w_member w0) -> created_by birth (w_council w0) -> timely birth (ts ++ later) ->
  w = world_run Out A w0 ts -> lasting (world_run Out A w0 (ts ++ later)) ->
  oget (ct_proposals (w_ctl w)) id = Some p -> pi_executed_at p = None ->
  oget (g_polls (w_gov w)) id = Some pl -> Forall (fun t => p_ends_at pl <= e_time (tx_env t)) later ->
  weight_then w (pi_type p) (p_ends_at pl) = 0 ->
  exists p', oget (ct_proposals (w_ctl (world_run Out A w0 (ts ++ later)))) id = Some p' /\ pi_executed_at p' = None /\
    pi_type p' = pi_type p /\ pi_deposit p' = pi_deposit p /\ pi_actions p' = pi_actions p.
Proof. exact stuck_forever. Qed.
Print Assumptions C39_stuck_forever.

Example C39_stuck_nonvacuous : exists p pl,
  lasting (world_run idle dao_at (dao false) deserting) /\
  oget (ct_proposals (w_ctl (world_run idle dao_at (dao false) deserting))) 1 = Some p /\
  oget (g_polls (w_gov (world_run idle dao_at (dao false) deserting))) 1 = Some pl /\
  pi_deposit p = Some (mk_deposit 11 (DDenom 70 25)) /\ pi_executed_at p = None /\ p_ends_at pl = 1100 * NANOS /\
  weight_then (world_run idle dao_at (dao false) deserting) (pi_type p) (p_ends_at pl) = 0.
Proof. exact deserting_case. Qed.

(** ... this happens, and the deposit stays where it is in every later history. *)
Theorem C39_deposit_stuck_refuted : exists (A : addrs) (w0 : world unit) ts id p d,
  new_dao A w0 /\ lasting (world_run idle A w0 ts) /\ oget (ct_proposals (w_ctl (world_run idle A w0 ts))) id = Some p /\
  pi_deposit p = Some d /\ pi_executed_at p = None /\
  forall later, timely (50 * NANOS) (ts ++ later) -> Forall (fun t => 1100 * NANOS <= e_time (tx_env t)) later ->
    lasting (world_run idle A w0 (ts ++ later)) ->
    exists p', oget (ct_proposals (w_ctl (world_run idle A w0 (ts ++ later)))) id = Some p' /\ pi_deposit p' = Some d /\ pi_executed_at p' = None.
Proof. exact deposit_stuck. Qed.
Print Assumptions C39_deposit_stuck_refuted.

(** C20: in every history of a DAO, the total weight there was at a past moment does not change any more. *)
Theorem C20_past_weights_fixed : forall X (Out : outside X) A birth w0 ts later ty when,
  new_dao A w0 -> created_by birth (w_member w0) -> created_by birth (w_council w0) -> timely birth (ts ++ later) ->
  lasting (world_run Out A w0 (ts ++ later)) -> Forall (fun t => when <= e_time (tx_env t)) later ->
  weight_then (world_run Out A w0 (ts ++ later)) ty when = weight_then (world_run Out A w0 ts) ty when.
Proof. exact past_weights_fixed. Qed.
Print Assumptions C20_past_weights_fixed.

Example C20_past_nonvacuous : new_dao dao_at (dao false) /\ created_by (50 * NANOS) (w_member (dao false)) /\ created_by (50 * NANOS) (w_council (dao false)) /\
  timely (50 * NANOS) (halfway ++ [stake 1000 12 7; execute 1100 12 1]) /\ lasting (world_run idle dao_at (dao false) (halfway ++ [stake 1000 12 7; execute 1100 12 1])) /\
  Forall (fun t => 150 * NANOS <= e_time (tx_env t)) [stake 1000 12 7; execute 1100 12 1] /\
  weight_then (world_run idle dao_at (dao false) halfway) General (150 * NANOS) = 105 /\
  weight_then (world_run idle dao_at (dao false) (halfway ++ [stake 1000 12 7; execute 1100 12 1])) General (1100 * NANOS) = 112.
Proof. exact past_case. Qed.

(** C34: a voter withdraws the stake before the vote ends, after the vote duration was changed alone, *)
Theorem C34_withdrawn_before_end_refuted : exists (A : addrs) (w0 : world unit) ts, new_dao A w0 /\ timely (50 * NANOS) ts /\ lasting (world_run idle A w0 ts) /\
  withdrawn_early A w0 ts 12 2 70 40.
Proof. exact withdrawn_before_end. Qed.
Print Assumptions C34_withdrawn_before_end_refuted.

(** ... and even if both periods have been changed, together and checked. *)
Theorem C34_withdrawn_though_checked_refuted : exists (A : addrs) (w0 : world unit) ts, new_dao A w0 /\ timely (50 * NANOS) ts /\ lasting (world_run idle A w0 ts) /\
  withdrawn_early A w0 ts 12 2 70 40 /\
  Forall (fun x => Forall (fun a => match a with PUpdateGovConfig u => exists n, gu_vote_duration u = Change n /\ gu_unlocking_period u = Change (DTime n) | PUpdateMinimumWeight _ => True | _ => False end)
    (pi_actions (snd x))) (elems (ct_proposals (w_ctl (world_run idle A w0 ts)))).
Proof. exact withdrawn_though_checked. Qed.
Print Assumptions C34_withdrawn_though_checked_refuted.
