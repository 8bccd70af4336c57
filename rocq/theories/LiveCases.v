(** Cases of the facts about resolving proposals. *)
From Verif Require Import Base OMap OMapLemmas Assets PollModel PollSpec FundsModel MemberModel MemberSpec Msgs ControllerModel ControllerSpec
  TreasuryModel EnterpriseModel OutpostsModel WorldModel WorldSpec WorldRun WorldExamples WorldCases LiveSpec LiveResults.

Lemma idle_free : free_calls idle.
Proof. intros [] a b. reflexivity. Qed.

Lemma both_created early : created_by (50 * NANOS) (w_member (dao early)) /\ created_by (50 * NANOS) (w_council (dao early)).
Proof.
  split.
  - exists (clock 50), (IDenom 1 70 (DTime 2000) [3]). split; [vm_compute; reflexivity|]. split; [vm_compute; discriminate|]. exact I.
  - exists (clock 50), (IMultisig 1 (Some [(21, 1); (22, 1); (23, 1)]) [] [] [3]). split; [vm_compute; reflexivity|]. split; [vm_compute; discriminate|]. exact I.
Qed.

(** The record and the poll of proposal 1. *)
Definition no_info : proposal_info := mk_info Council None None None [].
Definition no_poll : poll := mk_poll 0 0 0 (InProgress 0) 0 0 0 0 None oempty.
Definition record (w : world unit) : proposal_info := match oget (ct_proposals (w_ctl w)) 1 with Some p => p | None => no_info end.
Definition its_poll (w : world unit) : poll := match oget (g_polls (w_gov w)) 1 with Some p => p | None => no_poll end.

(** Proposal 1 of [halfway] after its end: somebody had weight, the vote passed, the actions come to an end, the deposit goes back. *)
Lemma resolvable_case : exists p pl total v,
  new_dao dao_at (dao false) /\ free_calls idle /\ lasting (after false halfway) /\
  oget (ct_proposals (w_ctl (after false halfway))) 1 = Some p /\ pi_executed_at p = None /\
  oget (g_polls (w_gov (after false halfway))) 1 = Some pl /\ p_ends_at pl <= e_time (clock 1100) /\
  restricted_by idle dao_at (after false halfway) (a_enterprise dao_at) 12 = Ok false /\
  total = weight_then (after false halfway) (pi_type p) (p_ends_at pl) /\ v = final_status pl total /\ total = 105 /\ (exists o y, v = Passed o y) /\
  (exists k, go idle dao_at k (judged dao_at (after false halfway) (clock 1100) 12 1 p pl total v) (clock 1100) (JMsg (a_controller dao_at) (run_order dao_at 1)) <> Err EGas) /\
  (forall w2, exists k w3, go idle dao_at k w2 (clock 1100) (JSubs (a_controller dao_at) (handed dao_at p v)) = Ok (w3, None)) /\
  handed dao_at p v <> [].
Proof.
  set (w := after false halfway). set (p := record w). set (pl := its_poll w). set (total := weight_then w (pi_type p) (p_ends_at pl)).
  exists p, pl, total, (final_status pl total).
  split; [exact (start_new _)|]. split; [exact idle_free|]. split; [split; vm_compute; reflexivity|].
  split; [vm_compute; reflexivity|]. split; [vm_compute; reflexivity|]. split; [vm_compute; reflexivity|]. split; [vm_compute; discriminate|]. split; [vm_compute; reflexivity|].
  split; [reflexivity|]. split; [reflexivity|]. split; [vm_compute; reflexivity|]. split; [do 2 eexists; vm_compute; reflexivity|].
  split; [exists 30%nat; vm_compute; discriminate|].
  assert (E : handed dao_at p (final_status pl total) = [mk_sub (BankSend 11 [(70, 25)]) ReplyNever]) by (vm_compute; reflexivity).
  rewrite E. split; [|discriminate]. intros w2. exists 5%nat. eexists. reflexivity.
Qed.

(** 11 and 12 leave before the vote on proposal 1 ends, and nobody comes. *)
Definition deserting : list tx := stakes ++ [propose 100 11 [PUpdateMinimumWeight 5]; vote_yes 110 11 1; unstake 200 11 60; unstake 201 12 40].

Lemma deserting_case : exists p pl,
  lasting (world_run idle dao_at (dao false) deserting) /\
  oget (ct_proposals (w_ctl (world_run idle dao_at (dao false) deserting))) 1 = Some p /\
  oget (g_polls (w_gov (world_run idle dao_at (dao false) deserting))) 1 = Some pl /\
  pi_deposit p = Some (mk_deposit 11 (DDenom 70 25)) /\ pi_executed_at p = None /\ p_ends_at pl = 1100 * NANOS /\
  weight_then (world_run idle dao_at (dao false) deserting) (pi_type p) (p_ends_at pl) = 0.
Proof.
  exists (record (world_run idle dao_at (dao false) deserting)), (its_poll (world_run idle dao_at (dao false) deserting)).
  split; [split; vm_compute; reflexivity|]. repeat split; vm_compute; reflexivity.
Qed.

(** The deposit of that proposal is never released, whatever happens later. *)
Lemma deposit_stuck : exists (A : addrs) (w0 : world unit) ts id p d,
  new_dao A w0 /\ lasting (world_run idle A w0 ts) /\ oget (ct_proposals (w_ctl (world_run idle A w0 ts))) id = Some p /\
  pi_deposit p = Some d /\ pi_executed_at p = None /\
  forall later, timely (50 * NANOS) (ts ++ later) -> Forall (fun t => 1100 * NANOS <= e_time (tx_env t)) later ->
    lasting (world_run idle A w0 (ts ++ later)) ->
    exists p', oget (ct_proposals (w_ctl (world_run idle A w0 (ts ++ later)))) id = Some p' /\ pi_deposit p' = Some d /\ pi_executed_at p' = None.
Proof.
  destruct deserting_case as (p & pl & L0 & Ep & Epl & Hd & He & Hend & Ht).
  exists dao_at, (dao false), deserting, 1, p, (mk_deposit 11 (DDenom 70 25)).
  split; [exact (start_new _)|]. split; [exact L0|]. split; [exact Ep|]. split; [exact Hd|]. split; [exact He|].
  intros later T F L. destruct (both_created false) as (B1 & B2). rewrite <- Hend in F.
  destruct (stuck_forever unit idle dao_at (50 * NANOS) (dao false) deserting later _ 1 p pl (start_new _) B1 B2 T eq_refl L Ep He Epl F Ht) as (p' & H1 & H2 & H3 & H4 & _).
  exists p'. split; [exact H1|]. split; [congruence|exact H2].
Qed.

(** All members' stakes, later transactions at fixed times. *)
Definition claim_stake_at (t : N) (s : addr) : tx := mk_tx 60 (clock t) s (WasmExecute 7 (ToMembership (DenomMsg (DCommon (SClaim None)))) []).

(** Votes are made longer by proposal 1, but the unlocking period stays. 12 votes on proposal 2, and then takes all tokens back before the vote ends. *)
Definition longer : gov_config_update := mk_gov_config_update NoChange NoChange NoChange (Change 5000) NoChange NoChange NoChange.
Definition outlast : list tx :=
  stakes ++ [propose 100 11 [PUpdateGovConfig longer]; vote_yes 110 11 1; execute 1100 12 1; propose 1200 11 [PUpdateMinimumWeight 5]; vote_yes 1210 12 2;
    unstake 1220 12 40; claim_stake_at 3220 12].

(** Both periods are made shorter by proposal 1, which is checked and accepted; the vote on proposal 2 is still as long as it was. *)
Definition shorter : gov_config_update := mk_gov_config_update NoChange NoChange NoChange (Change 100) (Change (DTime 100)) NoChange NoChange.
Definition undercut : list tx :=
  stakes ++ [propose 100 11 [PUpdateGovConfig shorter]; vote_yes 110 11 1; propose 1000 11 [PUpdateMinimumWeight 5]; vote_yes 1010 12 2; execute 1100 12 1;
    unstake 1220 12 40; claim_stake_at 1320 12].

(** [u], who took part in the vote [id], has been paid [n] coins of the staked denomination [d] back by the last transaction of [ts], before the vote ended. *)
Definition withdrawn_early (A : addrs) (w0 : world unit) (ts : list tx) (u id d n : N) : Prop :=
  exists pl v, oget (g_polls (w_gov (world_run idle A w0 ts))) id = Some pl /\ p_status pl = InProgress (p_ends_at pl) /\
    oget (votes_of (w_gov (world_run idle A w0 ts)) u) id = Some v /\
    In (a_membership A, BankSend u [(d, n)]) (w_log (world_run idle A w0 ts)) /\
    last_time ts < p_ends_at pl.

Lemma withdrawn_before_end : exists (A : addrs) (w0 : world unit) ts, new_dao A w0 /\ timely (50 * NANOS) ts /\ lasting (world_run idle A w0 ts) /\
  withdrawn_early A w0 ts 12 2 70 40.
Proof.
  exists dao_at, (dao false), outlast. split; [exact (start_new _)|]. split; [apply timely_check; vm_compute; reflexivity|]. split; [split; vm_compute; reflexivity|].
  do 2 eexists. split; [vm_compute; reflexivity|]. split; [vm_compute; reflexivity|]. split; [vm_compute; reflexivity|].
  split; [vm_compute; tauto|vm_compute; reflexivity].
Qed.

(** The same although, in all proposals, every change of the vote duration comes with a change of the unlocking period that the code has checked. *)
Lemma withdrawn_though_checked : exists (A : addrs) (w0 : world unit) ts, new_dao A w0 /\ timely (50 * NANOS) ts /\ lasting (world_run idle A w0 ts) /\
  withdrawn_early A w0 ts 12 2 70 40 /\
  Forall (fun x => Forall (fun a => match a with PUpdateGovConfig u => exists n, gu_vote_duration u = Change n /\ gu_unlocking_period u = Change (DTime n) | PUpdateMinimumWeight _ => True | _ => False end)
    (pi_actions (snd x))) (elems (ct_proposals (w_ctl (world_run idle A w0 ts)))).
Proof.
  exists dao_at, (dao false), undercut. split; [exact (start_new _)|]. split; [apply timely_check; vm_compute; reflexivity|]. split; [split; vm_compute; reflexivity|].
  split.
  - do 2 eexists. split; [vm_compute; reflexivity|]. split; [vm_compute; reflexivity|]. split; [vm_compute; reflexivity|].
    split; [vm_compute; tauto|vm_compute; reflexivity].
  - vm_compute. repeat constructor. exists 100. split; reflexivity.
Qed.

(** The totals at second 150 after [halfway], and after what follows. *)
Lemma past_case : new_dao dao_at (dao false) /\ created_by (50 * NANOS) (w_member (dao false)) /\ created_by (50 * NANOS) (w_council (dao false)) /\
  timely (50 * NANOS) (halfway ++ [stake 1000 12 7; execute 1100 12 1]) /\ lasting (world_run idle dao_at (dao false) (halfway ++ [stake 1000 12 7; execute 1100 12 1])) /\
  Forall (fun t => 150 * NANOS <= e_time (tx_env t)) [stake 1000 12 7; execute 1100 12 1] /\
  weight_then (world_run idle dao_at (dao false) halfway) General (150 * NANOS) = 105 /\
  weight_then (world_run idle dao_at (dao false) (halfway ++ [stake 1000 12 7; execute 1100 12 1])) General (1100 * NANOS) = 112.
Proof.
  split; [exact (start_new _)|]. split; [apply both_created|]. split; [apply both_created|]. split; [apply timely_check; vm_compute; reflexivity|].
  split; [split; vm_compute; reflexivity|]. split; [repeat constructor; vm_compute; discriminate|]. split; vm_compute; reflexivity.
Qed.
