(** Properties of whole histories of a DAO: C27-C29, C36-C38, C52. [world_run Out A w0 ts] is the DAO after the
    transactions [ts]; everything outside ([Out]) is arbitrary and may call the DAO's contracts at any time. *)
From Coq Require Import Permutation.
From Verif Require Import Base OMap OMapLemmas Assets PollModel PollSpec FundsModel MemberModel MemberSpec Msgs ControllerModel ControllerSpec
  TreasuryModel EnterpriseModel OutpostsModel WorldModel WorldSpec WorldFacts WorldExamples WorldCases.

(** C27: a proposal has been executed once if it is marked as executed, and never otherwise, *)
Theorem C27_executed_once : forall X (Out : outside X) A w0 ts id,
  new_dao A w0 -> lasting (world_run Out A w0 ts) ->
  executions A (world_run Out A w0 ts) id =
    match oget (ct_proposals (w_ctl (world_run Out A w0 ts))) id with
    | Some p => if is_some (pi_executed_at p) then 1 else 0
    | None => 0
    end.
Proof. exact executed_once. Qed.
Print Assumptions C27_executed_once.

(** ... its content and the mark never change, *)
Theorem C27_record_kept : forall X (Out : outside X) A w0 ts later id p,
  new_dao A w0 -> lasting (world_run Out A w0 (ts ++ later)) ->
  oget (ct_proposals (w_ctl (world_run Out A w0 ts))) id = Some p ->
  exists p', oget (ct_proposals (w_ctl (world_run Out A w0 (ts ++ later)))) id = Some p' /\
    pi_type p' = pi_type p /\ pi_deposit p' = pi_deposit p /\ pi_actions p' = pi_actions p /\
    (forall b, pi_executed_at p = Some b -> pi_executed_at p' = Some b).
Proof. exact record_kept. Qed.
Print Assumptions C27_record_kept.

(** ... every later call, by anyone, also from within a proposal, fails, *)
Theorem C27_executed_refused : forall X (Out : outside X) A w id p b n e s coins,
  oget (ct_proposals (w_ctl w)) id = Some p -> pi_executed_at p = Some b ->
  is_ok (go Out A n w e (JMsg s (WasmExecute (a_controller A) (ToController (CExecuteProposal id)) coins))) = false.
Proof. exact executed_refused. Qed.
Print Assumptions C27_executed_refused.

(** ... and the mark says whether its poll has ended. *)
Theorem C27_executed_iff_ended : forall X (Out : outside X) A w0 ts id p,
  new_dao A w0 -> timely 0 ts -> lasting (world_run Out A w0 ts) -> calm A (world_run Out A w0 ts) ->
  oget (ct_proposals (w_ctl (world_run Out A w0 ts))) id = Some p ->
  exists pl, oget (g_polls (w_gov (world_run Out A w0 ts))) id = Some pl /\
    (pi_executed_at p = None <-> exists ends, p_status pl = InProgress ends).
Proof. exact executed_iff_ended. Qed.
Print Assumptions C27_executed_iff_ended.

Example C27_world_nonvacuous :
  new_dao dao_at (dao false) /\ timely 0 usual /\ lasting (after false usual) /\ calm dao_at (after false usual) /\ thrifty dao_at (after false usual) /\
  executions dao_at (after false usual) 1 = 1 /\ action_runs dao_at (after false usual) 1 = 1 /\
  paid dao_at (after false usual) = [SentCoins 11 [(70, 25)]] /\ f_min (w_funds (after false usual)) = 5.
Proof. exact usual_case. Qed.

(** C28: the actions of a proposal are run at most once, by order of the controller itself, and only if it has been executed with its poll recorded as passed (the actions stored at creation: see C27_record_kept and C28_stored_actions), *)
Theorem C28_actions_of_passed : forall X (Out : outside X) A w0 ts id,
  new_dao A w0 -> timely 0 ts -> lasting (world_run Out A w0 ts) -> calm A (world_run Out A w0 ts) ->
  action_runs A (world_run Out A w0 ts) id <= 1 /\
  (action_runs A (world_run Out A w0 ts) id = 1 ->
     In (a_controller A, run_order A id) (w_log (world_run Out A w0 ts)) /\
     exists p pl b o n, oget (ct_proposals (w_ctl (world_run Out A w0 ts))) id = Some p /\ pi_executed_at p = Some b /\
       oget (g_polls (w_gov (world_run Out A w0 ts))) id = Some pl /\ p_status pl = Passed o n).
Proof. exact actions_of_passed. Qed.
Print Assumptions C28_actions_of_passed.

Example C28_world_nonvacuous :
  new_dao dao_at (dao false) /\ timely 0 usual /\ lasting (after false usual) /\ calm dao_at (after false usual) /\ thrifty dao_at (after false usual) /\
  executions dao_at (after false usual) 1 = 1 /\ action_runs dao_at (after false usual) 1 = 1 /\
  paid dao_at (after false usual) = [SentCoins 11 [(70, 25)]] /\ f_min (w_funds (after false usual)) = 5.
Proof. exact usual_case. Qed.

(** ... but a proposal whose custom messages make the controller call itself can run the actions of another one that is still open. *)
Theorem C28_self_call_refuted : exists (A : addrs) (w0 : world unit) ts id p pl ends,
  new_dao A w0 /\ timely 0 ts /\ lasting (world_run idle A w0 ts) /\
  action_runs A (world_run idle A w0 ts) id = 1 /\
  oget (ct_proposals (w_ctl (world_run idle A w0 ts))) id = Some p /\ pi_executed_at p = None /\
  oget (g_polls (w_gov (world_run idle A w0 ts))) id = Some pl /\ p_status pl = InProgress ends /\ last_time ts < ends /\
  recorded_votes (w_gov (world_run idle A w0 ts)) id = [].
Proof. exact hijack_case. Qed.
Print Assumptions C28_self_call_refuted.

(** C29: what the controller has given away is exactly the deposits of the executed proposals, each once and to the receiver the rule names, *)
Theorem C29_deposits_exact : forall X (Out : outside X) A w0 ts,
  new_dao A w0 -> timely 0 ts -> lasting (world_run Out A w0 ts) -> calm A (world_run Out A w0 ts) -> thrifty A (world_run Out A w0 ts) ->
  Permutation (paid A (world_run Out A w0 ts)) (released A (world_run Out A w0 ts)).
Proof. exact deposits_exact. Qed.
Print Assumptions C29_deposits_exact.

Example C29_world_nonvacuous :
  new_dao dao_at (dao false) /\ timely 0 usual /\ lasting (after false usual) /\ calm dao_at (after false usual) /\ thrifty dao_at (after false usual) /\
  executions dao_at (after false usual) 1 = 1 /\ action_runs dao_at (after false usual) 1 = 1 /\
  paid dao_at (after false usual) = [SentCoins 11 [(70, 25)]] /\ f_min (w_funds (after false usual)) = 5.
Proof. exact usual_case. Qed.

(** ... but a proposal whose custom messages pay from the controller can give away the deposit of another one. *)
Theorem C29_custom_payment_refuted : exists (A : addrs) (w0 : world unit) ts,
  new_dao A w0 /\ timely 0 ts /\ lasting (world_run idle A w0 ts) /\ calm A (world_run idle A w0 ts) /\
  ~ Permutation (paid A (world_run idle A w0 ts)) (released A (world_run idle A w0 ts)).
Proof. exact raid_case. Qed.
Print Assumptions C29_custom_payment_refuted.

(** C36: after the order to run the actions, the deposit is paid in the world the actions made, or in the one before if they failed, *)
Theorem C36_actions_isolated : forall X (Out : outside X) A n w e id dep,
  (0 < n)%nat ->
  go Out A (S n) w e (JSubs (a_controller A) (mk_sub (run_order A id) (ReplyAlways 3) :: dep)) =
    match go Out A n w e (JMsg (a_controller A) (run_order A id)) with
    | Ok (w2, _) => go Out A n w2 e (JSubs (a_controller A) dep)
    | Err EGas => Err EGas
    | Err _ => go Out A n w e (JSubs (a_controller A) dep)
    end.
Proof. exact actions_isolated. Qed.
Print Assumptions C36_actions_isolated.

(** ... and this is what happens in a successful call to execute a proposal. *)
Theorem C36_resolution : forall X (Out : outside X) A w0 ts n e s coins id w' d,
  new_dao A w0 -> lasting w' ->
  go Out A n (world_run Out A w0 ts) e (JMsg s (WasmExecute (a_controller A) (ToController (CExecuteProposal id)) coins)) = Ok (w', d) ->
  exists k w1 p pl dep, (0 < k < n)%nat /\
    oget (ct_proposals (w_ctl (world_run Out A w0 ts))) id = Some p /\ pi_executed_at p = None /\
    (* the proposal is marked as executed and its poll has ended; nothing else has changed *)
    ct_proposals (w_ctl w1) = oset (ct_proposals (w_ctl (world_run Out A w0 ts))) id
      (mk_info (pi_type p) (Some e) (pi_earliest p) (pi_deposit p) (pi_actions p)) /\
    oget (g_polls (w_gov w1)) id = Some pl /\ (forall t, p_status pl <> InProgress t) /\
    (forall i, i <> id -> oget (g_polls (w_gov w1)) i = oget (g_polls (w_gov (world_run Out A w0 ts))) i) /\
    g_votes (w_gov w1) = g_votes (w_gov (world_run Out A w0 ts)) /\
    (w_enterprise w1, w_member w1, w_council w1, w_funds w1, w_treasury w1, w_outposts w1) =
      (w_enterprise (world_run Out A w0 ts), w_member (world_run Out A w0 ts), w_council (world_run Out A w0 ts),
       w_funds (world_run Out A w0 ts), w_treasury (world_run Out A w0 ts), w_outposts (world_run Out A w0 ts)) /\
    (pi_deposit p = None -> dep = []) /\
    (forall dp, pi_deposit p = Some dp -> pi_type p = General ->
       exists to, deposit_goes (a_treasury A) (dp_depositor dp) (p_status pl) to /\ hands_over to (dp_asset dp) dep) /\
    match p_status pl with
    | Passed _ _ =>
        (* the actions succeed, or all of their effects are dropped; the deposit is paid in both cases *)
        match go Out A k w1 e (JMsg (a_controller A) (run_order A id)) with
        | Ok (w2, _) => go Out A k w2 e (JSubs (a_controller A) dep)
        | Err EGas => Err EGas
        | Err _ => go Out A k w1 e (JSubs (a_controller A) dep)
        end = Ok (w', None)
    | _ => go Out A k w1 e (JSubs (a_controller A) dep) = Ok (w', None)
    end.
Proof. exact resolution. Qed.
Print Assumptions C36_resolution.

Example C36_nonvacuous :
  new_dao dao_at (dao true) /\ lasting (after true (failing ++ [execute 300 12 1])) /\
  executions dao_at (after true (failing ++ [execute 300 12 1])) 1 = 1 /\ action_runs dao_at (after true (failing ++ [execute 300 12 1])) 1 = 0 /\
  paid dao_at (after true (failing ++ [execute 300 12 1])) = [SentCoins 11 [(70, 25)]] /\
  f_min (w_funds (after true (failing ++ [execute 300 12 1]))) = 0 /\
  is_ok (go idle dao_at 60 (after true failing) (clock 300) (JMsg 12 (WasmExecute 3 (ToController (CExecuteProposal 1)) []))) = true.
Proof. exact failing_case. Qed.

(** C37: a vote on a council proposal takes on the staked weight of the voter, *)
Theorem C37_council_vote_refuted : exists (A : addrs) (w0 : world unit) ts id voter v,
  new_dao A w0 /\ timely 0 ts /\ lasting (world_run idle A w0 ts) /\ calm A (world_run idle A w0 ts) /\
  open_poll (world_run idle A w0 ts) Council id (last_time ts) /\
  weight_of (w_council (world_run idle A w0 ts)) voter = 1 /\ total_now (w_council (world_run idle A w0 ts)) = 3 /\
  recorded_votes (w_gov (world_run idle A w0 ts)) id = [v] /\ v_voter v = voter /\ v_amount v = 7.
Proof. exact grab_case. Qed.
Print Assumptions C37_council_vote_refuted.

(** ... so that one council member of three decides alone. *)
Theorem C37_one_member_decides_refuted :
  is_ok (world_tx idle dao_at (after true grab) (execute 130 21 1)) = false /\
  exists pl, oget (g_polls (w_gov (after true (grabbed ++ [execute 130 21 1])))) 1 = Some pl /\
    p_status pl = Passed (outcome_u8 Yes) 7 /\
    action_runs dao_at (after true (grabbed ++ [execute 130 21 1])) 1 = 1 /\
    md_name (en_metadata (w_enterprise (after true (grabbed ++ [execute 130 21 1])))) = 13.
Proof. exact grab_decides. Qed.
Print Assumptions C37_one_member_decides_refuted.

(** C38: votes on open general proposals are the current weights, *)
Theorem C38_votes_are_weights : forall X (Out : outside X) A w0 ts now,
  new_dao A w0 -> timely 0 ts -> lasting (world_run Out A w0 ts) -> calm A (world_run Out A w0 ts) -> last_time ts <= now ->
  votes_current (world_run Out A w0 ts) now.
Proof. exact votes_are_weights. Qed.
Print Assumptions C38_votes_are_weights.

(** ... their sum is at most the total weight, and the tallies are exact, *)
Theorem C38_votes_below_total : forall X (Out : outside X) A w0 ts now id pl,
  new_dao A w0 -> timely 0 ts -> lasting (world_run Out A w0 ts) -> calm A (world_run Out A w0 ts) -> last_time ts <= now ->
  open_poll (world_run Out A w0 ts) General id now -> oget (g_polls (w_gov (world_run Out A w0 ts))) id = Some pl ->
  lsum v_amount (recorded_votes (w_gov (world_run Out A w0 ts)) id) <= total_now (w_member (world_run Out A w0 ts)) /\
  (forall o, votes_for pl o = tally (w_gov (world_run Out A w0 ts)) id o) /\
  votes_for pl Yes + votes_for pl No + votes_for pl Abstain + votes_for pl Veto <= total_now (w_member (world_run Out A w0 ts)).
Proof. exact votes_below_total. Qed.
Print Assumptions C38_votes_below_total.

Example C38_nonvacuous :
  new_dao dao_at (dao false) /\ timely 0 halfway /\ lasting (after false halfway) /\ calm dao_at (after false halfway) /\
  open_poll (after false halfway) General 1 (last_time halfway) /\
  option_map v_amount (get_vote (w_gov (after false halfway)) 12 1) = Some 45 /\ weight_of (w_member (after false halfway)) 12 = 45 /\
  lsum v_amount (recorded_votes (w_gov (after false halfway)) 1) = 105 /\ total_now (w_member (after false halfway)) = 105.
Proof. exact halfway_case. Qed.

(** ... but a proposal whose custom messages make the controller call the governance contract can set votes at will. *)
Theorem C38_custom_votes_refuted : exists (A : addrs) (w0 : world unit) ts id voter v,
  new_dao A w0 /\ timely 0 ts /\ lasting (world_run idle A w0 ts) /\
  open_poll (world_run idle A w0 ts) General id (last_time ts) /\
  get_vote (w_gov (world_run idle A w0 ts)) voter id = Some v /\ v_amount v = 5000 /\
  weight_of (w_member (world_run idle A w0 ts)) voter = 40 /\ total_now (w_member (world_run idle A w0 ts)) = 100.
Proof. exact stuffing_case. Qed.
Print Assumptions C38_custom_votes_refuted.

(** C52: a change of weights makes a proposal executable in the same second. *)
Theorem C52_weight_shift_refuted : exists (A : addrs) (w0 : world unit) ts t p p' pl,
  new_dao A w0 /\ timely 0 (ts ++ [t]) /\ lasting (world_run idle A w0 (ts ++ [t; execute 120 12 1])) /\
  calm A (world_run idle A w0 (ts ++ [t; execute 120 12 1])) /\
  oget (ct_proposals (w_ctl (world_run idle A w0 ts))) 1 = Some p /\ pi_executed_at p = None /\
  gc_allow_early (ct_config (w_ctl (world_run idle A w0 ts))) = true /\ gc_vote_duration (ct_config (w_ctl (world_run idle A w0 ts))) = 1000 /\
  last_time (ts ++ [t]) = 120 * NANOS /\ is_ok (world_tx idle A (world_run idle A w0 ts) (execute 120 12 1)) = false /\
  oget (ct_proposals (w_ctl (world_run idle A w0 (ts ++ [t; execute 120 12 1])))) 1 = Some p' /\
  pi_executed_at p' = Some (clock 120) /\ pi_earliest p' = None /\
  oget (g_polls (w_gov (world_run idle A w0 (ts ++ [t; execute 120 12 1])))) 1 = Some pl /\
  p_status pl = Passed (outcome_u8 Yes) 100 /\ p_ends_at pl = 1100 * NANOS.
Proof. exact shift_case. Qed.
Print Assumptions C52_weight_shift_refuted.
