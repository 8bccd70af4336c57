(** Cases for the messages of the controller and of the enterprise contract. *)
From Verif Require Import Base OMap OMapLemmas Assets PollModel FundsModel FundsSpec MemberModel MemberSpec Msgs ControllerModel ControllerSpec
  TreasuryModel EnterpriseModel OutpostsModel WorldModel WorldSpec WorldExamples WorldCases FacadeSpec
  LedgerSpec LedgerExamples PurseSpec PurseFacts PurseCases RewardCases ExitCases RuleSpec RuleFacts RuleCases OrderSpec.

Lemma sent_at log s m k before : nth_error log k = Some (s, m) -> skipn (S k) log = before -> sent_after log s m before.
Proof.
  revert log. induction k as [|k IH]; intros [|x log] H E; try discriminate.
  - injection H as ->. cbn in E. subst. exists []. reflexivity.
  - destruct (IH log H E) as (later & E'). exists (x :: later). cbn. f_equal. exact E'.
Qed.

(** In the upgrade of [version_next]: the vote, the run of the actions, the order to the enterprise contract, its own migration. *)
Lemma sends_case : let l := w_log version_next in let order := enterprise_call dao_at (EnUpgradeDao (version 1 1 0) []) in
  new_dao dao_at (purse_dao false) /\ w_upgraded (purse_dao false) = false /\ N.of_nat (length l) < 2 ^ 64 /\ w_upgraded version_next = true /\
  timely 0 (before_upgrade ++ [execute 1100 12 1]) /\ calm dao_at version_next /\
  (exists before, sent_after l (a_enterprise dao_at) (WasmMigrate (a_enterprise dao_at) 501 0) before /\ In (a_controller dao_at, order) before /\ In 1 (ran dao_at before)) /\
  (exists before, sent_after l (a_controller dao_at) order before /\ commanded dao_at version_next before order) /\
  (exists before, sent_after l (a_controller dao_at) (run_order dao_at 1) before /\ ran dao_at before = []) /\
  (exists before, sent_after l (a_controller dao_at) (BankSend 11 [(70, 25)]) before).
Proof.
  intros l order. split; [apply purse_new|]. split; [reflexivity|]. split; [apply N.ltb_lt; vm_compute; reflexivity|]. split; [vm_compute; reflexivity|].
  split; [vm_compute; repeat split; discriminate|]. split; [apply calm_check; vm_compute; reflexivity|].
  split; [eexists; split; [apply (sent_at _ _ _ 1); [vm_compute; reflexivity|vm_compute; reflexivity]|]; split; [left; reflexivity|vm_compute; left; reflexivity]|].
  split.
  { eexists. split; [apply (sent_at _ _ _ 2); [vm_compute; reflexivity|vm_compute; reflexivity]|].
    eexists 1, _, _. split; [vm_compute; left; reflexivity|]. split; [vm_compute; reflexivity|]. split; [left; reflexivity|]. vm_compute. reflexivity. }
  split.
  { eexists. split; [apply (sent_at _ _ _ 3); [vm_compute; reflexivity|vm_compute; reflexivity]|vm_compute; reflexivity]. }
  eexists. apply (sent_at _ _ _ 0); [vm_compute; reflexivity|vm_compute; reflexivity].
Qed.

(** A registry that lists this repository's code: the same upgrade stays within it. *)
Definition own_code (c : N) : option code_kind :=
  if N.eqb c 501 then Some KEnterprise else if N.eqb c 502 then Some KOutposts else if N.eqb c 503 then Some KFunds else if N.eqb c 504 then Some KToken
  else if N.eqb c 505 then Some KDenom else if N.eqb c 506 then Some KNft else if N.eqb c 507 then Some KMultisig else None.
Definition own_version (v : N) : version_info := mk_version_info v 0 0 501 0 0 502 0 503 504 505 506 507.
Definition own_registry : outside book :=
  mk_outside (x_exec chain) (x_reply chain) (x_msg chain) (x_pay chain) (x_signed chain) (x_nft_owner chain) (x_ics721 chain) (x_global chain)
    (fun _ _ start _ => Ok (filter (fun v => dflt 0 start <? vi_version v) [own_version (version 1 1 0); own_version (version 1 2 1)]))
    (fun _ _ v => Ok (own_version v)) (x_creator chain) (x_derive chain) (fun _ => own_code).
Lemma own_registry_lists : own_versions own_registry.
Proof.
  split.
  - intros x x' c k H. exact H.
  - intros x reg start limit vs H. injection H as <-. destruct (dflt 0 start <? version 1 1 0), (dflt 0 start <? version 1 2 1); repeat constructor.
  - intros x reg n v H. injection H as <-. repeat split; reflexivity.
Qed.
Definition to_latest : list tx := stakes ++ [propose 100 11 [PUpgradeDao (version 1 2 1) []]; vote_yes 110 11 1; execute 1100 12 1].
Definition latest : world book := world_run own_registry dao_at (purse_dao false) to_latest.
Lemma followed_case : new_dao dao_at (purse_dao false) /\ w_upgraded (purse_dao false) = false /\ typed (purse_dao false) /\ own_versions own_registry /\
  N.of_nat (length (w_log latest)) < 2 ^ 64 /\ runs dao_at latest = [1] /\
  option_map pi_actions (oget (ct_proposals (w_ctl latest)) 1) = Some [PUpgradeDao (version 1 2 1) []] /\ picks_code dao_at (PUpgradeDao (version 1 2 1) []) = false /\
  filter (fun x => fst x =? a_enterprise dao_at) (w_log latest) = [(1, WasmMigrate 1 501 0); (1, WasmMigrate 1 501 0)] /\
  en_version (w_enterprise latest) = version 1 2 1 /\ w_upgraded latest = false.
Proof.
  split; [apply purse_new|]. split; [reflexivity|]. split; [split; [exact I|eexists; reflexivity]|]. split; [exact own_registry_lists|].
  split; [apply N.ltb_lt; vm_compute; reflexivity|]. repeat (split; [vm_compute; reflexivity|]). vm_compute. reflexivity.
Qed.

Lemma created_order_case : fresh_token = Some fresh_start /\ w_upgraded fresh_start = false /\ typed fresh_start /\ en_type (w_enterprise fresh_start) = DaoToken.
Proof.
  split; [exact (proj1 created_case)|]. split; [vm_compute; reflexivity|]. split; [|vm_compute; reflexivity].
  split; [vm_compute; exact I|eexists; vm_compute; reflexivity].
Qed.

(** * What is false *)

(** Not only upgrades change code: messages of choice sent as the enterprise contract do, to any code, and without the version changing. *)
Definition new_brain : list tx :=
  stakes ++ [propose 100 11 [PExecuteEnterpriseMsgs [Some (WasmMigrate 3 999 0)]]; vote_yes 110 11 1; execute 1100 12 1].
Lemma code_of_choice_case : exists (X : Type) (Out : outside X) A w0 ts w,
  new_dao A w0 /\ w_upgraded w0 = false /\ typed w0 /\ own_versions Out /\ w = world_run Out A w0 ts /\ N.of_nat (length (w_log w)) < 2 ^ 64 /\
  (forall id p a v msgs, In id (runs A w) -> oget (ct_proposals (w_ctl w)) id = Some p -> In a (pi_actions p) -> a <> PUpgradeDao v msgs) /\
  In (a_enterprise A, WasmMigrate (a_controller A) 999 0) (w_log w) /\ w_upgraded w = true /\ en_version (w_enterprise w) = en_version (w_enterprise w0).
Proof.
  exists book, own_registry, dao_at, (purse_dao false), new_brain, (world_run own_registry dao_at (purse_dao false) new_brain).
  destruct followed_case as (H1 & H2 & H3 & H4 & _). split; [exact H1|]. split; [exact H2|]. split; [exact H3|]. split; [exact H4|]. split; [reflexivity|].
  split; [apply N.ltb_lt; vm_compute; reflexivity|].
  assert (R : runs dao_at (world_run own_registry dao_at (purse_dao false) new_brain) = [1]) by (vm_compute; reflexivity).
  assert (P : option_map pi_actions (oget (ct_proposals (w_ctl (world_run own_registry dao_at (purse_dao false) new_brain))) 1)
     = Some [PExecuteEnterpriseMsgs [Some (WasmMigrate 3 999 0)]]) by (vm_compute; reflexivity).
  split.
  { intros id p a v msgs Hr Hp Ha. rewrite R in Hr. destruct Hr as [<-|[]]. rewrite Hp in P. injection P as P. rewrite P in Ha. destruct Ha as [<-|[]]. discriminate. }
  split; [vm_compute; tauto|]. split; vm_compute; reflexivity.
Qed.
