(** C89: the actions of a proposal are carried out in full and in order, or not at all. *)
From Coq Require Import Permutation.
From Verif Require Import Base OMap OMapLemmas Assets PollModel FundsModel FundsSpec MemberModel MemberSpec Msgs ControllerModel ControllerSpec
  TreasuryModel EnterpriseModel OutpostsModel FactoryModel FactorySpec FactoryExamples WorldModel WorldSpec WorldExamples CreationModel CreationFacts
  FacadeSpec LedgerSpec LedgerExamples PurseSpec PurseFacts PurseCases RewardCases ExitCases OrderSpec DoneSpec DoneFacts DoneCases.

(** If the actions of a proposal were run, everything they mean was delivered afterwards, as messages of the controller and in the order of the actions. *)
Theorem C89_carried_out : forall (X : Type) (Out : outside X) A w0 ts w later s id coins before,
  new_dao A w0 -> w = world_run Out A w0 ts -> lasting w ->
  w_log w = later ++ (s, WasmExecute (a_controller A) (ToController (CExecuteActions id)) coins) :: before ->
  exists p, oget (ct_proposals (w_ctl w)) id = Some p /\ carried_out A (en_type (w_enterprise w)) (pi_actions p) later.
Proof. exact all_carried_out. Qed.
Print Assumptions C89_carried_out.

Example C89_done_nonvacuous : new_dao dao_at (purse_dao false) /\ lasting mixture /\ timely 0 mixing /\ runs dao_at mixture = [1] /\
  option_map pi_actions (oget (ct_proposals (w_ctl mixture)) 1) = Some mixed /\ en_type (w_enterprise mixture) = DaoDenom /\
  (exists later before, w_log mixture = later ++ (3, WasmExecute 3 (ToController (CExecuteActions 1)) []) :: before /\
     rev later = [(3, WasmExecute 4 (ToTreasury (TrSpend 99 [(Native 70, 10)])) []); (4, BankSend 99 [(70, 10)]);
       (3, WasmExecute 7 (ToMembership (DenomMsg (DCommon (SUpdatePeriod (Some (DTime 2000)))))) []);
       (3, WasmExecute 6 (ToFunds (FUpdateMinimum 3)) []);
       (3, WasmExecute 4 (ToTreasury (TrSpend 97 [(Native 70, 2)])) []); (4, BankSend 97 [(70, 2)]); (3, BankSend 11 [(70, 25)])]) /\
  matters dao_at (sent_by 3 mixture) = [WasmExecute 4 (ToTreasury (TrSpend 97 [(Native 70, 2)])) []; WasmExecute 6 (ToFunds (FUpdateMinimum 3)) [];
    WasmExecute 7 (ToMembership (DenomMsg (DCommon (SUpdatePeriod (Some (DTime 2000)))))) []; WasmExecute 4 (ToTreasury (TrSpend 99 [(Native 70, 10)])) []].
Proof. exact done_case. Qed.

(** So every message of every action of a proposal that was run has been delivered. *)
Theorem C89_each_delivered : forall (X : Type) (Out : outside X) A w0 ts w id p a m,
  new_dao A w0 -> w = world_run Out A w0 ts -> lasting w ->
  In id (runs A w) -> oget (ct_proposals (w_ctl w)) id = Some p -> In a (pi_actions p) -> In m (meant A (en_type (w_enterprise w)) a) ->
  In (a_controller A, m) (w_log w).
Proof. exact each_delivered. Qed.
Print Assumptions C89_each_delivered.

(** Apart from errands, the controller has sent exactly what the proposals that were run mean: nothing less, nothing more, nothing twice. *)
Theorem C89_exactly : forall (X : Type) (Out : outside X) A w0 ts w,
  new_dao A w0 -> w = world_run Out A w0 ts -> lasting w ->
  Permutation (matters A (sent_by (a_controller A) w)) (matters A (flat_map (meaning A w) (runs A w))).
Proof. exact exactly_meant. Qed.
Print Assumptions C89_exactly.

(** However one measures messages that are no errands, the controller has sent what the proposals that were run amount to. *)
Theorem C89_measured : forall (X : Type) (Out : outside X) A w0 ts w (f : cosmos_msg -> N),
  new_dao A w0 -> w = world_run Out A w0 ts -> lasting w -> (forall m, errand A m = true -> f m = 0) ->
  lsum f (sent_by (a_controller A) w) = lsum (fun id => lsum f (meaning A w id)) (runs A w).
Proof. exact count_of. Qed.
Print Assumptions C89_measured.

(** In a DAO created by the factory nothing has to be assumed about the start. *)
Theorem C89_created : forall (X : Type) (Out : outside X) (x : X) o s sender m v fresh s' log eo e b,
  fa_tx s (mk_fa_call o sender (FaCreate m v) fresh) = Ok (s', log) -> NoDup fresh -> births_of eo e (fo_self o) log = Ok b ->
  exists d w0, assigned m fresh d /\ dao_of d b x = Some w0 /\
    forall ts, let A := addrs_of d in let w := world_run Out A w0 ts in
      lasting w -> Permutation (matters A (sent_by (a_controller A) w)) (matters A (flat_map (meaning A w) (runs A w))).
Proof. exact created_done. Qed.
Print Assumptions C89_created.

(** False of proposals that passed and were resolved: if one of their actions fails, nothing is carried out, and they are not tried again. *)
Theorem C89_resolved_refuted : exists (w0 : world book) ts w p pl b o n, new_dao dao_at w0 /\ w = world_run chain dao_at w0 ts /\ lasting w /\ timely 0 ts /\ calm dao_at w /\
  oget (ct_proposals (w_ctl w)) 1 = Some p /\ pi_executed_at p = Some b /\ oget (g_polls (w_gov w)) 1 = Some pl /\ p_status pl = Passed o n /\
  runs dao_at w = [] /\ matters dao_at (sent_by (a_controller dao_at) w) = [] /\ sent_by (a_treasury dao_at) w = [] /\
  pi_actions p = mixed ++ [PRequestFunding None 99 [(Native 70, 5000)]].
Proof. exact none_done. Qed.
Print Assumptions C89_resolved_refuted.
