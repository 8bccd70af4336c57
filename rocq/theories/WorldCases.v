(** Cases of the facts about whole histories, and histories that refute stronger claims. *)
From Coq Require Import Permutation.
From Verif Require Import Base OMap OMapLemmas Assets PollModel PollSpec FundsModel MemberModel MemberSpec Msgs ControllerModel ControllerSpec
  TreasuryModel EnterpriseModel OutpostsModel WorldModel WorldSpec WorldExamples.

(** * Decidable versions *)

Definition harmlessb (A : addrs) (m : cosmos_msg) : bool :=
  match m with
  | WasmExecute to _ _ => negb (to =? a_controller A) && negb (to =? a_governance A) && negb (to =? a_membership A)
  | _ => true
  end.
Definition all_customs {X} (w : world X) : list cosmos_msg := flat_map (fun kp => customs (snd kp)) (elems (ct_proposals (w_ctl w))).

Lemma customs_all {X} (w : world X) id p m : oget (ct_proposals (w_ctl w)) id = Some p -> In m (customs p) -> In m (all_customs w).
Proof. intros Hp Hm. apply in_flat_map. exists (id, p). split; [apply oget_In; exact Hp|exact Hm]. Qed.

Lemma calm_check {X} A (w : world X) : forallb (harmlessb A) (all_customs w) = true -> calm A w.
Proof.
  intros H id p m _ Hp Hm. rewrite forallb_forall in H. specialize (H m (customs_all w id p m Hp Hm)).
  destruct m; try exact I. cbn in *. repeat (apply andb_true_iff in H; destruct H as (H & ?)).
  repeat split; intros E; subst; rewrite N.eqb_refl in *; discriminate.
Qed.

Lemma thrifty_check {X} A (w : world X) :
  forallb (fun m => match payment (a_controller A) m with [] => true | _ => false end) (all_customs w) = true -> thrifty A w.
Proof.
  intros H id p m _ Hp Hm. rewrite forallb_forall in H. specialize (H m (customs_all w id p m Hp Hm)).
  destruct (payment (a_controller A) m); [reflexivity|discriminate].
Qed.

Fixpoint timelyb (from : N) (ts : list tx) : bool :=
  match ts with [] => true | t :: rest => (from <=? e_time (tx_env t)) && timelyb (e_time (tx_env t)) rest end.
Lemma timely_check ts : forall from, timelyb from ts = true -> timely from ts.
Proof.
  induction ts as [|t ts IH]; intros from H; [exact I|]. cbn in *. apply andb_true_iff in H. destruct H as (H1 & H2).
  split; [lia|auto].
Qed.

Ltac history := split; [exact (start_new _)|]; split; [apply timely_check; vm_compute; reflexivity|]; split; [split; vm_compute; reflexivity|].

Lemma some_case {V} (o : option V) (P : V -> Prop) : match o with Some v => P v | None => False end -> exists v, o = Some v /\ P v.
Proof. destruct o as [v|]; [|intros []]. intros H. exists v. auto. Qed.

Lemma open_check {X} (w : world X) t id now :
  match oget (ct_proposals (w_ctl w)) id with
  | Some p => pi_type p = t /\ match oget (g_polls (w_gov w)) id with
                               | Some pl => match p_status pl with InProgress ends => now < ends | _ => False end
                               | None => False
                               end
  | None => False
  end -> open_poll w t id now.
Proof.
  unfold open_poll. destruct (oget (ct_proposals (w_ctl w)) id) as [p|]; [|intros []]. intros (H1 & H).
  destruct (oget (g_polls (w_gov w)) id) as [pl|]; [|destruct H]. destruct (p_status pl) as [ends| |] eqn:E; [|destruct H..].
  exists p, pl, ends. auto.
Qed.

(** * The usual course: every hypothesis is met *)

Lemma usual_case :
  new_dao dao_at (dao false) /\ timely 0 usual /\ lasting (after false usual) /\ calm dao_at (after false usual) /\ thrifty dao_at (after false usual) /\
  executions dao_at (after false usual) 1 = 1 /\ action_runs dao_at (after false usual) 1 = 1 /\
  paid dao_at (after false usual) = [SentCoins 11 [(70, 25)]] /\ f_min (w_funds (after false usual)) = 5.
Proof.
  history. split; [apply calm_check; vm_compute; reflexivity|]. split; [apply thrifty_check; vm_compute; reflexivity|].
  repeat split; vm_compute; reflexivity.
Qed.

(** While the vote is open: 11 has voted with 60, 12 with 40 and then staked 5 more. *)
Definition halfway : list tx := firstn 6 usual.
Lemma halfway_case :
  new_dao dao_at (dao false) /\ timely 0 halfway /\ lasting (after false halfway) /\ calm dao_at (after false halfway) /\
  open_poll (after false halfway) General 1 (last_time halfway) /\
  option_map v_amount (get_vote (w_gov (after false halfway)) 12 1) = Some 45 /\ weight_of (w_member (after false halfway)) 12 = 45 /\
  lsum v_amount (recorded_votes (w_gov (after false halfway)) 1) = 105 /\ total_now (w_member (after false halfway)) = 105.
Proof.
  history. split; [apply calm_check; vm_compute; reflexivity|].
  split; [apply open_check; vm_compute; split; reflexivity|repeat split; vm_compute; reflexivity].
Qed.

(** * The second action fails: the first one is undone, the proposal is executed, the deposit is returned *)
Lemma failing_case :
  new_dao dao_at (dao true) /\ lasting (after true (failing ++ [execute 300 12 1])) /\
  executions dao_at (after true (failing ++ [execute 300 12 1])) 1 = 1 /\ action_runs dao_at (after true (failing ++ [execute 300 12 1])) 1 = 0 /\
  paid dao_at (after true (failing ++ [execute 300 12 1])) = [SentCoins 11 [(70, 25)]] /\
  f_min (w_funds (after true (failing ++ [execute 300 12 1]))) = 0 /\
  is_ok (go idle dao_at 60 (after true failing) (clock 300) (JMsg 12 (WasmExecute 3 (ToController (CExecuteProposal 1)) []))) = true.
Proof. split; [exact (start_new _)|]. split; [split; vm_compute; reflexivity|]. repeat split; vm_compute; reflexivity. Qed.

(** * Without calm: refutations *)

Lemma hijack_case : exists (A : addrs) (w0 : world unit) ts id p pl ends,
  new_dao A w0 /\ timely 0 ts /\ lasting (world_run idle A w0 ts) /\
  action_runs A (world_run idle A w0 ts) id = 1 /\
  oget (ct_proposals (w_ctl (world_run idle A w0 ts))) id = Some p /\ pi_executed_at p = None /\
  oget (g_polls (w_gov (world_run idle A w0 ts))) id = Some pl /\ p_status pl = InProgress ends /\ last_time ts < ends /\
  recorded_votes (w_gov (world_run idle A w0 ts)) id = [].
Proof.
  destruct (some_case (oget (ct_proposals (w_ctl (world_run idle dao_at (dao true) hijack))) 1) (fun p => pi_executed_at p = None)) as (p & E1 & F1);
    [vm_compute; reflexivity|].
  destruct (some_case (oget (g_polls (w_gov (world_run idle dao_at (dao true) hijack))) 1) (fun pl => p_status pl = InProgress (1100 * NANOS))) as (pl & E2 & F2);
    [vm_compute; reflexivity|].
  exists dao_at, (dao true), hijack, 1, p, pl, (1100 * NANOS). history.
  split; [vm_compute; reflexivity|]. split; [exact E1|]. split; [exact F1|]. split; [exact E2|]. split; [exact F2|]. split; vm_compute; reflexivity.
Qed.

Lemma raid_case : exists (A : addrs) (w0 : world unit) ts,
  new_dao A w0 /\ timely 0 ts /\ lasting (world_run idle A w0 ts) /\ calm A (world_run idle A w0 ts) /\
  ~ Permutation (paid A (world_run idle A w0 ts)) (released A (world_run idle A w0 ts)).
Proof.
  exists dao_at, (dao true), raid. history. split; [apply calm_check; vm_compute; reflexivity|].
  intros P. apply Permutation_length in P. revert P. vm_compute. discriminate.
Qed.

Lemma stuffing_case : exists (A : addrs) (w0 : world unit) ts id voter v,
  new_dao A w0 /\ timely 0 ts /\ lasting (world_run idle A w0 ts) /\
  open_poll (world_run idle A w0 ts) General id (last_time ts) /\
  get_vote (w_gov (world_run idle A w0 ts)) voter id = Some v /\ v_amount v = 5000 /\
  weight_of (w_member (world_run idle A w0 ts)) voter = 40 /\ total_now (w_member (world_run idle A w0 ts)) = 100.
Proof.
  destruct (some_case (get_vote (w_gov (world_run idle dao_at (dao true) stuffing)) 12 1) (fun v => v_amount v = 5000)) as (v & E & F);
    [vm_compute; reflexivity|].
  exists dao_at, (dao true), stuffing, 1, 12, v. history. split; [apply open_check; vm_compute; split; reflexivity|].
  split; [exact E|]. split; [exact F|]. split; vm_compute; reflexivity.
Qed.

(** * Council votes *)

Definition grabbed : list tx := grab ++ [stake 120 21 2].
Lemma grab_case : exists (A : addrs) (w0 : world unit) ts id voter v,
  new_dao A w0 /\ timely 0 ts /\ lasting (world_run idle A w0 ts) /\ calm A (world_run idle A w0 ts) /\
  open_poll (world_run idle A w0 ts) Council id (last_time ts) /\
  weight_of (w_council (world_run idle A w0 ts)) voter = 1 /\ total_now (w_council (world_run idle A w0 ts)) = 3 /\
  recorded_votes (w_gov (world_run idle A w0 ts)) id = [v] /\ v_voter v = voter /\ v_amount v = 7.
Proof.
  exists dao_at, (dao true), grabbed, 1, 21, (mk_vote 1 21 (outcome_u8 Yes) 7). history.
  split; [apply calm_check; vm_compute; reflexivity|]. split; [apply open_check; vm_compute; split; reflexivity|].
  repeat split; vm_compute; reflexivity.
Qed.

(** One of three council members, having voted alone: the proposal cannot be executed early; after a change of that
    member's stake it can, and its action is run. *)
Lemma grab_decides :
  is_ok (world_tx idle dao_at (after true grab) (execute 130 21 1)) = false /\
  exists pl, oget (g_polls (w_gov (after true (grabbed ++ [execute 130 21 1])))) 1 = Some pl /\
    p_status pl = Passed (outcome_u8 Yes) 7 /\
    action_runs dao_at (after true (grabbed ++ [execute 130 21 1])) 1 = 1 /\
    md_name (en_metadata (w_enterprise (after true (grabbed ++ [execute 130 21 1])))) = 13.
Proof.
  split; [vm_compute; reflexivity|].
  destruct (some_case (oget (g_polls (w_gov (after true (grabbed ++ [execute 130 21 1])))) 1) (fun pl => p_status pl = Passed (outcome_u8 Yes) 7))
    as (pl & E & F); [vm_compute; reflexivity|].
  exists pl. split; [exact E|]. split; [exact F|]. split; vm_compute; reflexivity.
Qed.

(** * Early execution after a weight shift *)

(** Before the last transaction the proposal could not be executed, and no delay is recorded; the same second
    it is executed. *)
Lemma shift_case : exists (A : addrs) (w0 : world unit) ts t p p' pl,
  new_dao A w0 /\ timely 0 (ts ++ [t]) /\ lasting (world_run idle A w0 (ts ++ [t; execute 120 12 1])) /\
  calm A (world_run idle A w0 (ts ++ [t; execute 120 12 1])) /\
  oget (ct_proposals (w_ctl (world_run idle A w0 ts))) 1 = Some p /\ pi_executed_at p = None /\
  gc_allow_early (ct_config (w_ctl (world_run idle A w0 ts))) = true /\ gc_vote_duration (ct_config (w_ctl (world_run idle A w0 ts))) = 1000 /\
  last_time (ts ++ [t]) = 120 * NANOS /\ is_ok (world_tx idle A (world_run idle A w0 ts) (execute 120 12 1)) = false /\
  oget (ct_proposals (w_ctl (world_run idle A w0 (ts ++ [t; execute 120 12 1])))) 1 = Some p' /\
  pi_executed_at p' = Some (clock 120) /\ pi_earliest p' = None /\
  oget (g_polls (w_gov (world_run idle A w0 (ts ++ [t; execute 120 12 1])))) 1 = Some pl /\
  p_status pl = Passed (outcome_u8 Yes) 100 /\ p_ends_at pl = 1100 * NANOS.
Proof.
  set (ts := firstn 4 shift). set (fin := ts ++ [stake 120 12 90; execute 120 12 1]).
  destruct (some_case (oget (ct_proposals (w_ctl (world_run idle dao_at (dao true) ts))) 1) (fun p => pi_executed_at p = None)) as (p & E1 & F1);
    [vm_compute; reflexivity|].
  destruct (some_case (oget (ct_proposals (w_ctl (world_run idle dao_at (dao true) fin))) 1)
              (fun p => pi_executed_at p = Some (clock 120) /\ pi_earliest p = None)) as (p' & E2 & F2 & G2); [vm_compute; split; reflexivity|].
  destruct (some_case (oget (g_polls (w_gov (world_run idle dao_at (dao true) fin))) 1)
              (fun pl => p_status pl = Passed (outcome_u8 Yes) 100 /\ p_ends_at pl = 1100 * NANOS)) as (pl & E3 & F3 & G3); [vm_compute; split; reflexivity|].
  exists dao_at, (dao true), ts, (stake 120 12 90), p, p', pl. fold fin. history.
  split; [apply calm_check; vm_compute; reflexivity|]. split; [exact E1|]. split; [exact F1|].
  split; [vm_compute; reflexivity|]. split; [vm_compute; reflexivity|].
  split; [vm_compute; reflexivity|]. split; [vm_compute; reflexivity|]. split; [exact E2|]. split; [exact F2|]. split; [exact G2|].
  split; [exact E3|]. split; [exact F3|exact G3].
Qed.
