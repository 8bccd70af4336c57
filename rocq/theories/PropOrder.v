(** C88: the controller and the enterprise contract send only what proposals ordered; code changes only by proposals about it. *)
From Verif Require Import Base OMap OMapLemmas Assets PollModel FundsModel FundsSpec MemberModel MemberSpec Msgs ControllerModel ControllerSpec
  TreasuryModel EnterpriseModel OutpostsModel FactoryModel FactorySpec FactoryExamples WorldModel WorldSpec WorldExamples CreationModel CreationFacts
  FacadeSpec LedgerSpec LedgerExamples PurseSpec PurseFacts PurseCases RewardCases ExitCases RuleSpec RuleFacts RuleCases OrderSpec OrderFacts OrderCases.

(** Every message the controller ever sends is routine, or one that an action of a proposal means whose actions were run before. *)
Theorem C88_controller_sends : forall (X : Type) (Out : outside X) A w0 ts w m before,
  new_dao A w0 -> w = world_run Out A w0 ts -> N.of_nat (length (w_log w)) < 2 ^ 64 -> sent_after (w_log w) (a_controller A) m before ->
  routine A w m \/ commanded A w before m.
Proof. exact controller_sends. Qed.
Print Assumptions C88_controller_sends.

Example C88_sends_nonvacuous : let l := w_log version_next in let order := enterprise_call dao_at (EnUpgradeDao (version 1 1 0) []) in
  new_dao dao_at (purse_dao false) /\ w_upgraded (purse_dao false) = false /\ N.of_nat (length l) < 2 ^ 64 /\ w_upgraded version_next = true /\
  timely 0 (before_upgrade ++ [execute 1100 12 1]) /\ calm dao_at version_next /\
  (exists before, sent_after l (a_enterprise dao_at) (WasmMigrate (a_enterprise dao_at) 501 0) before /\ In (a_controller dao_at, order) before /\ In 1 (ran dao_at before)) /\
  (exists before, sent_after l (a_controller dao_at) order before /\ commanded dao_at version_next before order) /\
  (exists before, sent_after l (a_controller dao_at) (run_order dao_at 1) before /\ ran dao_at before = []) /\
  (exists before, sent_after l (a_controller dao_at) (BankSend 11 [(70, 25)]) before).
Proof. exact sends_case. Qed.

(** Every message the enterprise contract ever sends follows from what the controller told it before, *)
Theorem C88_enterprise_sends : forall (X : Type) (Out : outside X) A w0 ts w m before,
  new_dao A w0 -> w_upgraded w0 = false -> w = world_run Out A w0 ts -> sent_after (w_log w) (a_enterprise A) m before ->
  exists em coins, In (a_controller A, WasmExecute (a_enterprise A) (ToEnterprise em) coins) before /\ yields A em m.
Proof. exact enterprise_sends. Qed.
Print Assumptions C88_enterprise_sends.

(** and the controller was told so by a proposal. *)
Theorem C88_enterprise_ordered : forall (X : Type) (Out : outside X) A w0 ts w m before,
  new_dao A w0 -> w_upgraded w0 = false -> w = world_run Out A w0 ts -> N.of_nat (length (w_log w)) < 2 ^ 64 -> sent_after (w_log w) (a_enterprise A) m before ->
  exists id p a em coins, In id (ran A before) /\ oget (ct_proposals (w_ctl w)) id = Some p /\ In a (pi_actions p) /\
    commands A a (WasmExecute (a_enterprise A) (ToEnterprise em) coins) /\ yields A em m.
Proof. exact enterprise_ordered. Qed.
Print Assumptions C88_enterprise_ordered.

(** So if the code of a contract of the DAO, or who may change it, leaves what this repository has, a proposal about code was run before. *)
Theorem C88_code_by_proposals : forall (X : Type) (Out : outside X) A w0 ts w,
  new_dao A w0 -> w_upgraded w0 = false -> w = world_run Out A w0 ts -> N.of_nat (length (w_log w)) < 2 ^ 64 -> w_upgraded w = true ->
  exists m before id p a, sent_after (w_log w) (a_enterprise A) m before /\ recodes A m = true /\
    In id (ran A before) /\ oget (ct_proposals (w_ctl w)) id = Some p /\ In a (pi_actions p) /\ about_code A a = true.
Proof. exact code_by_proposals. Qed.
Print Assumptions C88_code_by_proposals.

(** If no proposal that was run calls the DAO with messages of choice, that proposal had passed. *)
Theorem C88_code_voted : forall (X : Type) (Out : outside X) A w0 ts w,
  new_dao A w0 -> w_upgraded w0 = false -> w = world_run Out A w0 ts -> N.of_nat (length (w_log w)) < 2 ^ 64 -> w_upgraded w = true ->
  timely 0 ts -> calm A w ->
  exists id p a pl b o n, In id (runs A w) /\ oget (ct_proposals (w_ctl w)) id = Some p /\ In a (pi_actions p) /\ about_code A a = true /\
    pi_executed_at p = Some b /\ oget (g_polls (w_gov w)) id = Some pl /\ p_status pl = Passed o n.
Proof. exact code_voted. Qed.
Print Assumptions C88_code_voted.

(** A DAO that upgrades along a registry of this repository's code, and never picks code by itself, stays within what the whole-DAO theorems cover. *)
Theorem C88_upgrades_followed : forall (X : Type) (Out : outside X) A w0 ts w,
  new_dao A w0 -> w_upgraded w0 = false -> typed w0 -> own_versions Out -> w = world_run Out A w0 ts -> N.of_nat (length (w_log w)) < 2 ^ 64 ->
  (forall id p a, In id (runs A w) -> oget (ct_proposals (w_ctl w)) id = Some p -> In a (pi_actions p) -> picks_code A a = false) ->
  lasting w.
Proof. exact upgrades_followed. Qed.
Print Assumptions C88_upgrades_followed.

Example C88_followed_nonvacuous : new_dao dao_at (purse_dao false) /\ w_upgraded (purse_dao false) = false /\ typed (purse_dao false) /\ own_versions own_registry /\
  N.of_nat (length (w_log latest)) < 2 ^ 64 /\ runs dao_at latest = [1] /\
  option_map pi_actions (oget (ct_proposals (w_ctl latest)) 1) = Some [PUpgradeDao (version 1 2 1) []] /\ picks_code dao_at (PUpgradeDao (version 1 2 1) []) = false /\
  filter (fun x => fst x =? a_enterprise dao_at) (w_log latest) = [(1, WasmMigrate 1 501 0); (1, WasmMigrate 1 501 0)] /\
  en_version (w_enterprise latest) = version 1 2 1 /\ w_upgraded latest = false.
Proof. exact followed_case. Qed.

(** The DAOs that the factory creates are of that kind. *)
Theorem C88_created_typed : forall (X : Type) (x : X) o s sender m v fresh s' log eo e b,
  fa_tx s (mk_fa_call o sender (FaCreate m v) fresh) = Ok (s', log) -> NoDup fresh -> births_of eo e (fo_self o) log = Ok b ->
  exists d w0, assigned m fresh d /\ dao_of d b x = Some w0 /\ new_dao (addrs_of d) w0 /\ w_upgraded w0 = false /\ typed w0.
Proof. exact created_typed. Qed.
Print Assumptions C88_created_typed.

Example C88_created_nonvacuous : fresh_token = Some fresh_start /\ w_upgraded fresh_start = false /\ typed fresh_start /\ en_type (w_enterprise fresh_start) = DaoToken.
Proof. exact created_order_case. Qed.

(** Code can change without an upgrade: messages of choice sent as the enterprise contract can give any contract any code. *)
Theorem C88_only_by_upgrades_refuted : exists (X : Type) (Out : outside X) A w0 ts w,
  new_dao A w0 /\ w_upgraded w0 = false /\ typed w0 /\ own_versions Out /\ w = world_run Out A w0 ts /\ N.of_nat (length (w_log w)) < 2 ^ 64 /\
  (forall id p a v msgs, In id (runs A w) -> oget (ct_proposals (w_ctl w)) id = Some p -> In a (pi_actions p) -> a <> PUpgradeDao v msgs) /\
  In (a_enterprise A, WasmMigrate (a_controller A) 999 0) (w_log w) /\ w_upgraded w = true /\ en_version (w_enterprise w) = en_version (w_enterprise w0).
Proof. exact code_of_choice_case. Qed.
Print Assumptions C88_only_by_upgrades_refuted.
