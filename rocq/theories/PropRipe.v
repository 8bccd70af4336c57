(** C90: when proposals can be executed, at any time and by anybody. *)
From Verif Require Import Base OMap OMapLemmas Assets PollModel PollSpec FundsModel MemberModel MemberSpec Msgs ControllerModel ControllerSpec
  TreasuryModel EnterpriseModel OutpostsModel WorldModel WorldSpec WorldExamples LiveSpec EndSpec RipeSpec RipeFacts RipeCases.

(** A request to execute a proposal succeeds exactly if the proposal is ripe, the votes are clear if it comes before the end, and the verdict can be carried out; this is all that happens. *)
Theorem C90_executable_exact : forall X (Out : outside X) A w0 ts w e s id w',
  new_dao A w0 -> free_calls Out -> w = world_run Out A w0 ts -> lasting w ->
  (exists gas d, go Out A gas w e (JMsg s (ask_resolution A id)) = Ok (w', d)) <->
  exists p pl total v, ripe Out A w e s id p pl total /\ v = final_status pl total /\ (e_time e < p_ends_at pl -> clear_cut v) /\
    concluded Out A e id (handed A p v) v (judged A w e s id p pl total v) w'.
Proof. exact executable_exact. Qed.
Print Assumptions C90_executable_exact.

Example C90_ripe_nonvacuous : exists p pl total v,
  new_dao dao_at (dao true) /\ free_calls idle /\ timely 0 voted /\ lasting (after true voted) /\ calm dao_at (after true voted) /\ last_time voted <= e_time (clock 210) /\
  ripe idle dao_at (after true voted) (clock 210) 12 1 p pl total /\ pi_type p = General /\ e_time (clock 210) < p_ends_at pl /\
  total = 100 /\ turnout (w_gov (after true voted)) 1 = 60 /\ share_fits 60 100 /\
  v = final_status pl total /\ v = Passed 0 60 /\ ruled (w_gov (after true voted)) 1 pl total v /\ clear_cut v /\
  done_at (after true voted) 209 = false /\ done_at (after true voted) 210 = true /\
  done_at (after false voted) 210 = false /\ done_at (after false voted) 1099 = false /\ done_at (after false voted) 1100 = true.
Proof. exact ripe_case. Qed.

(** In a calm history the verdict is the one that the voting rule gives for the recorded votes. *)
Theorem C90_by_the_rule : forall X (Out : outside X) A w0 ts w e s id w',
  new_dao A w0 -> free_calls Out -> timely 0 ts -> w = world_run Out A w0 ts -> lasting w -> calm A w ->
  (forall p pl total, ripe Out A w e s id p pl total -> share_fits (turnout (w_gov w) id) total) ->
  (exists gas d, go Out A gas w e (JMsg s (ask_resolution A id)) = Ok (w', d)) <->
  exists p pl total v, ripe Out A w e s id p pl total /\ ruled (w_gov w) id pl total v /\ (e_time e < p_ends_at pl -> clear_cut v) /\
    concluded Out A e id (handed A p v) v (judged A w e s id p pl total v) w'.
Proof. exact executable_by_rule. Qed.
Print Assumptions C90_by_the_rule.

(** Before the end, votes on general proposals are never more than the total, so their share can be computed. *)
Theorem C90_early_fits : forall X (Out : outside X) A w0 ts w e s id p pl total,
  new_dao A w0 -> timely 0 ts -> w = world_run Out A w0 ts -> lasting w -> calm A w -> last_time ts <= e_time e ->
  ripe Out A w e s id p pl total -> pi_type p = General -> e_time e < p_ends_at pl ->
  turnout (w_gov w) id <= total /\ share_fits (turnout (w_gov w) id) total.
Proof. exact early_fits. Qed.
Print Assumptions C90_early_fits.

(** It is false that early verdicts are those of people who were members when the proposal was made, or who still are when it is executed: somebody without any weight joins, decides the vote alone and leaves. *)
Theorem C90_newcomers_refuted : exists (w0 : world unit) before later,
  let w := world_run idle dao_at w0 before in let w' := world_run idle dao_at w0 (before ++ later) in
  new_dao dao_at w0 /\ timely 0 (before ++ later) /\ lasting w' /\ calm dao_at w' /\
  exists p pl, oget (ct_proposals (w_ctl w)) 1 = Some p /\ pi_executed_at p = None /\
    oget (g_polls (w_gov w')) 1 = Some pl /\ p_status pl = Passed 0 300 /\ last_time (before ++ later) < p_ends_at pl /\
    newcomers w w' 1 /\ (forall u v, get_vote (w_gov w') u 1 = Some v -> weight_of (w_member w') u = 0) /\ weight_now w General = 100 /\ weight_now w' General = 100.
Proof. exact swooped. Qed.
Print Assumptions C90_newcomers_refuted.
