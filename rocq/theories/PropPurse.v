(** C83: the treasury sends exactly what proposals ordered. *)
From Coq Require Import Permutation.
From Verif Require Import Base OMap OMapLemmas Assets PollModel FundsModel FundsSpec MemberModel MemberSpec Msgs ControllerModel ControllerSpec
  TreasuryModel EnterpriseModel OutpostsModel FactoryModel FactorySpec FactoryExamples WorldModel WorldSpec WorldExamples CreationModel CreationFacts CreationCases
  FacadeSpec LedgerSpec LedgerExamples PurseSpec PurseFacts PurseStart PurseCases RewardCases ExitCases.

(** The messages the treasury has sent are exactly those ordered by the proposals whose actions were run: none missing, none more, none twice. *)
Theorem C83_treasury_exact : forall (X : Type) (Out : outside X) A w0 ts w,
  new_dao A w0 -> new_treasury A w0 -> w = world_run Out A w0 ts -> lasting w -> treasury_kept A w ->
  Permutation (sent_by (a_treasury A) w) (ordered A w).
Proof. exact treasury_exact. Qed.
Print Assumptions C83_treasury_exact.

Example C83_exact_nonvacuous : new_dao dao_at (purse_dao false) /\ new_treasury dao_at (purse_dao false) /\ lasting spent /\ treasury_kept dao_at spent /\
  runs dao_at spent = [1] /\
  sent_by 4 spent = [BankSend 97 [(70, 2)]; BankSend 98 [(70, 1)]; WasmExecute 6 (ToFunds FDistributeNative) [(70, 7)];
    WasmExecute 80 (ToCw20 (Cw20Send 6 4 HookDistribute)) []; WasmExecute 80 (ToCw20 (Cw20Transfer 99 5)) []; BankSend 99 [(70, 10)]].
Proof. exact exact_case. Qed.

(** So, however one measures messages (coins of a denom, tokens, calls of a contract), the treasury has sent what the proposals that were run amount to. *)
Theorem C83_spent : forall (X : Type) (Out : outside X) A w0 ts w (amount : cosmos_msg -> N),
  new_dao A w0 -> new_treasury A w0 -> w = world_run Out A w0 ts -> lasting w -> treasury_kept A w ->
  lsum amount (sent_by (a_treasury A) w) = lsum (fun id => lsum amount (orders_of A w id)) (runs A w).
Proof. exact treasury_measure. Qed.
Print Assumptions C83_spent.

(** Every proposal that was run exists. *)
Theorem C83_runs_exist : forall (X : Type) (Out : outside X) A w0 ts w,
  new_dao A w0 -> new_treasury A w0 -> w = world_run Out A w0 ts -> lasting w -> treasury_kept A w ->
  forall id, In id (runs A w) -> exists p, oget (ct_proposals (w_ctl w)) id = Some p.
Proof. exact treasury_runs. Qed.
Print Assumptions C83_runs_exist.

(** If no proposal that was run calls the DAO with messages of choice, then every one of them had passed, and was run once. *)
Theorem C83_voted : forall (X : Type) (Out : outside X) A w0 ts w,
  new_dao A w0 -> new_treasury A w0 -> w = world_run Out A w0 ts -> lasting w -> treasury_kept A w -> timely 0 ts -> calm A w ->
  NoDup (runs A w) /\
  (forall id, In id (runs A w) -> exists p pl b o n, oget (ct_proposals (w_ctl w)) id = Some p /\ pi_executed_at p = Some b /\
     oget (g_polls (w_gov w)) id = Some pl /\ p_status pl = Passed o n) /\
  forall m, In m (sent_by (a_treasury A) w) -> exists id p pl b o n, In id (runs A w) /\ oget (ct_proposals (w_ctl w)) id = Some p /\
    In m (orders A p) /\ pi_executed_at p = Some b /\ oget (g_polls (w_gov w)) id = Some pl /\ p_status pl = Passed o n.
Proof. exact treasury_voted. Qed.
Print Assumptions C83_voted.

Example C83_voted_nonvacuous : timely 0 spending /\ calm dao_at spent /\
  option_map pi_executed_at (oget (ct_proposals (w_ctl spent)) 2) = Some (Some (clock 1103)).
Proof. exact voted_case. Qed.

(** On every ledger that takes from the treasury only what its own messages cost, its balance falls by at most what proposals ordered. *)
Theorem C83_balance : forall (X : Type) (Out : outside X) A w0 ts w attached taken bal,
  new_dao A w0 -> new_treasury A w0 -> w = world_run Out A w0 ts -> lasting w -> treasury_kept A w ->
  keeps_for Out (a_treasury A) attached taken bal ->
  bal (w_ext w0) <= bal (w_ext w) + lsum (fun id => lsum (price attached taken) (orders_of A w id)) (runs A w).
Proof. exact treasury_balance. Qed.
Print Assumptions C83_balance.

Example C83_balance_nonvacuous : keeps_for chain 4 coins_70 banked (has 4 (HAmount (Native 70))) /\
  has 4 (HAmount (Native 70)) (w_ext (purse_dao false)) = 1000 /\
  has 4 (HAmount (Native 70)) (w_ext spent) = 980 /\
  lsum (fun id => lsum (price coins_70 banked) (orders_of dao_at spent id)) (runs dao_at spent) = 20.
Proof. exact balance_case. Qed.

(** In a DAO created by the factory nothing has to be assumed about the start. *)
Theorem C83_created : forall X (Out : outside X) (x : X) o s sender m v fresh s' log eo e b,
  fa_tx s (mk_fa_call o sender (FaCreate m v) fresh) = Ok (s', log) -> NoDup fresh -> births_of eo e (fo_self o) log = Ok b ->
  exists d w0, assigned m fresh d /\ dao_of d b x = Some w0 /\
    forall ts, let A := addrs_of d in let w := world_run Out A w0 ts in
      lasting w -> treasury_kept A w -> Permutation (sent_by (a_treasury A) w) (ordered A w).
Proof. exact created_purse. Qed.
Print Assumptions C83_created.

Example C83_created_nonvacuous : let A := addrs_of made_token in let w := world_run idle A fresh_start first_stake in
  fresh_token = Some fresh_start /\ lasting w /\ treasury_kept A w /\ weight_of (w_member w) 61 = 30.
Proof. exact created_purse_case. Qed.

(** False after a proposal has given the treasury to another admin. *)
Theorem C83_handed_over_refuted : exists (w0 : world book) ts w, new_dao dao_at w0 /\ new_treasury dao_at w0 /\ w = world_run chain dao_at w0 ts /\ lasting w /\
  timely 0 ts /\ calm dao_at w /\ sent_by (a_treasury dao_at) w = [BankSend 99 [(70, 500)]] /\ ordered dao_at w = [].
Proof. exact given_up_unordered. Qed.
Print Assumptions C83_handed_over_refuted.

(** With messages of choice to the controller, a proposal that nobody voted on can be run and paid. *)
Theorem C83_unvoted_refuted : exists (w0 : world book) ts w p pl ends, new_dao dao_at w0 /\ new_treasury dao_at w0 /\ w = world_run chain dao_at w0 ts /\ lasting w /\
  treasury_kept dao_at w /\ timely 0 ts /\ sent_by (a_treasury dao_at) w = [BankSend 12 [(70, 500)]] /\ runs dao_at w = [1; 2] /\
  oget (ct_proposals (w_ctl w)) 1 = Some p /\ orders dao_at p = [BankSend 12 [(70, 500)]] /\
  oget (g_polls (w_gov w)) 1 = Some pl /\ p_status pl = InProgress ends.
Proof. exact hijacked_unvoted. Qed.
Print Assumptions C83_unvoted_refuted.
