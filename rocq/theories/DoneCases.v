(** Cases for actions carried out in full, or not at all. *)
From Coq Require Import Permutation.
From Verif Require Import Base OMap OMapLemmas Assets PollModel FundsModel FundsSpec MemberModel MemberSpec Msgs ControllerModel ControllerSpec
  TreasuryModel EnterpriseModel OutpostsModel WorldModel WorldSpec WorldExamples WorldCases FacadeSpec
  LedgerSpec LedgerExamples PurseSpec PurseFacts PurseCases RewardCases ExitCases RuleSpec RuleFacts RuleCases OrderSpec OrderCases DoneSpec.

(** One proposal with orders to the treasury, to the distributor, to the membership contract and with a message of choice. *)
Definition mixed : list proposal_action :=
  [PRequestFunding None 99 [(Native 70, 10)];
   PUpdateGovConfig (mk_gov_config_update NoChange NoChange NoChange NoChange (Change (DTime 2000)) NoChange NoChange);
   PUpdateMinimumWeight 3; PExecuteMsgs [Some (WasmExecute 4 (ToTreasury (TrSpend 97 [(Native 70, 2)])) [])]].
Definition mixing : list tx := stakes ++ [propose 100 11 mixed; vote_yes 110 11 1; execute 1102 12 1].
Definition mixture : world book := world_run chain dao_at (purse_dao false) mixing.

Lemma done_case : new_dao dao_at (purse_dao false) /\ lasting mixture /\ timely 0 mixing /\ runs dao_at mixture = [1] /\
  option_map pi_actions (oget (ct_proposals (w_ctl mixture)) 1) = Some mixed /\ en_type (w_enterprise mixture) = DaoDenom /\
  (exists later before, w_log mixture = later ++ (3, WasmExecute 3 (ToController (CExecuteActions 1)) []) :: before /\
     rev later = [(3, WasmExecute 4 (ToTreasury (TrSpend 99 [(Native 70, 10)])) []); (4, BankSend 99 [(70, 10)]);
       (3, WasmExecute 7 (ToMembership (DenomMsg (DCommon (SUpdatePeriod (Some (DTime 2000)))))) []);
       (3, WasmExecute 6 (ToFunds (FUpdateMinimum 3)) []);
       (3, WasmExecute 4 (ToTreasury (TrSpend 97 [(Native 70, 2)])) []); (4, BankSend 97 [(70, 2)]); (3, BankSend 11 [(70, 25)])]) /\
  matters dao_at (sent_by 3 mixture) = [WasmExecute 4 (ToTreasury (TrSpend 97 [(Native 70, 2)])) []; WasmExecute 6 (ToFunds (FUpdateMinimum 3)) [];
    WasmExecute 7 (ToMembership (DenomMsg (DCommon (SUpdatePeriod (Some (DTime 2000)))))) []; WasmExecute 4 (ToTreasury (TrSpend 99 [(Native 70, 10)])) []].
Proof.
  split; [apply purse_new|]. split; [apply lasting_check; vm_compute; reflexivity|]. split; [vm_compute; repeat split; discriminate|].
  split; [vm_compute; reflexivity|]. split; [vm_compute; reflexivity|]. split; [vm_compute; reflexivity|]. split; [|vm_compute; reflexivity].
  exists (firstn 7 (w_log mixture)), (skipn 8 (w_log mixture)). split; vm_compute; reflexivity.
Qed.

(** * What is false *)

(** A proposal that passed and was resolved need not have been carried out: one payment that fails undoes all the others, and it is not tried again. *)
Definition one_too_many : list proposal_action := mixed ++ [PRequestFunding None 99 [(Native 70, 5000)]].
Definition overspending : list tx := stakes ++ [propose 100 11 one_too_many; vote_yes 110 11 1; execute 1102 12 1; execute 1103 12 1].
Lemma none_done : exists (w0 : world book) ts w p pl b o n, new_dao dao_at w0 /\ w = world_run chain dao_at w0 ts /\ lasting w /\ timely 0 ts /\ calm dao_at w /\
  oget (ct_proposals (w_ctl w)) 1 = Some p /\ pi_executed_at p = Some b /\ oget (g_polls (w_gov w)) 1 = Some pl /\ p_status pl = Passed o n /\
  runs dao_at w = [] /\ matters dao_at (sent_by (a_controller dao_at) w) = [] /\ sent_by (a_treasury dao_at) w = [] /\
  pi_actions p = mixed ++ [PRequestFunding None 99 [(Native 70, 5000)]].
Proof.
  exists (purse_dao false), overspending, (world_run chain dao_at (purse_dao false) overspending). do 5 eexists.
  split; [apply purse_new|]. split; [reflexivity|]. split; [apply lasting_check; vm_compute; reflexivity|]. split; [vm_compute; repeat split; discriminate|].
  split; [apply calm_check; vm_compute; reflexivity|]. split; [vm_compute; reflexivity|]. split; [vm_compute; reflexivity|].
  split; [vm_compute; reflexivity|]. split; [vm_compute; reflexivity|]. split; [vm_compute; reflexivity|]. split; [vm_compute; reflexivity|].
  split; vm_compute; reflexivity.
Qed.
