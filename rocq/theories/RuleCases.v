(** Cases of settings that change and of settings that do not, and what is false. *)
From Verif Require Import Base OMap OMapLemmas Assets PollModel PollSpec FundsModel MemberModel MemberSpec Msgs ControllerModel
  ControllerSpec TreasuryModel EnterpriseModel OutpostsModel WorldModel WorldSpec WorldExamples FacadeSpec LedgerSpec LedgerExamples FactorySpec FactoryExamples
  CreationModel CreationCases RewardCases ExitCases PurseSpec PurseCases RuleSpec.

Lemma purse_in_charge early k : in_charge dao_at k (purse_dao early).
Proof. destruct k; try exact I; try (vm_compute; reflexivity). eexists. split; [vm_compute; reflexivity|reflexivity]. Qed.

(** Proposal 1 is about the name, the minimum weight and the assets of the treasury; its message of choice is about none of the settings. *)
Definition renamed : metadata_update := mk_metadata_update (Change 13) NoChange NoChange NoChange NoChange NoChange NoChange.
Definition reform : list proposal_action :=
  [PUpdateMetadata renamed; PUpdateMinimumWeight 5; PUpdateAssets None [Native 71] [];
   PExecuteMsgs [Some (WasmExecute 6 (ToFunds FDistributeNative) [])]].
Definition before_reform : list tx := stakes ++ [propose 100 11 reform; vote_yes 110 11 1].
Definition during_reform : list tx := [stake 120 12 5; execute 1100 12 1; stake 1101 12 5].
Definition old_ways : world book := world_run chain dao_at (purse_dao false) before_reform.
Definition new_ways : world book := world_run chain dao_at old_ways during_reform.

Definition any_concerns (A : addrs) (k : setting) (l : list proposal_action) : bool := existsb (concerns A k) l.
Lemma reform_case : new_dao dao_at (purse_dao false) /\ lasting new_ways /\ timely 0 (before_reform ++ during_reform) /\ calm dao_at new_ways /\
  (forall k, in_charge dao_at k old_ways) /\ runs dao_at old_ways = [] /\ runs dao_at new_ways = [1] /\
  option_map pi_actions (oget (ct_proposals (w_ctl new_ways)) 1) = Some reform /\
  map (fun k => any_concerns dao_at k reform) [OfMetadata; OfMinimum; OfAssets] = [true; true; true] /\
  map (fun k => any_concerns dao_at k reform) [OfRegistry; OfVersion; OfAttestation; OfRules; OfCouncil; OfNfts; OfPeriod; OfHooks; OfMembers]
    = [false; false; false; false; false; false; false; false; false] /\
  md_name (en_metadata (w_enterprise old_ways)) = 100 /\ md_name (en_metadata (w_enterprise new_ways)) = 13 /\
  f_min (w_funds old_ways) = 0 /\ f_min (w_funds new_ways) = 5 /\
  ohas (tr_natives (w_treasury old_ways)) 71 = false /\ ohas (tr_natives (w_treasury new_ways)) 71 = true.
Proof.
  split; [apply purse_new|]. split; [apply lasting_check; vm_compute; reflexivity|]. split; [vm_compute; repeat split; discriminate|].
  split; [apply calm_check; vm_compute; reflexivity|].
  split; [intros k; destruct k; try exact I; try (vm_compute; reflexivity); eexists; (split; [vm_compute; reflexivity|reflexivity])|].
  repeat (split; [vm_compute; reflexivity|]). vm_compute. reflexivity.
Qed.

(** With a registry that lists version 1.1.0, proposal 1 upgrades the DAO. *)
Definition next_version : version_info := mk_version_info (version 1 1 0) 0 0 501 0 0 0 0 0 0 0 0 0.
Definition upgradable : outside book :=
  mk_outside (x_exec chain) (x_reply chain) (x_msg chain) (x_pay chain) (x_signed chain) (x_nft_owner chain) (x_ics721 chain) (x_global chain)
    (fun _ _ start _ => Ok (if dflt 0 start <? version 1 1 0 then [next_version] else [])) (x_version chain) (x_creator chain) (x_derive chain) (x_code chain).
Definition before_upgrade : list tx := stakes ++ [propose 100 11 [PUpgradeDao (version 1 1 0) []]; vote_yes 110 11 1].
Definition version_one : world book := world_run upgradable dao_at (purse_dao false) before_upgrade.
Definition version_next : world book := world_step upgradable dao_at version_one (execute 1100 12 1).
Lemma upgrade_case : lasting version_one /\ N.of_nat (length (w_log version_next)) < 2 ^ 64 /\ w_upgraded version_next = true /\
  en_version (w_enterprise version_one) = version 1 0 0 /\ en_version (w_enterprise version_next) = version 1 1 0 /\
  concerns dao_at OfVersion (PUpgradeDao (version 1 1 0) []) = true /\ concerns dao_at OfRules (PUpgradeDao (version 1 1 0) []) = false.
Proof.
  split; [apply lasting_check; vm_compute; reflexivity|]. split; [apply N.ltb_lt; vm_compute; reflexivity|].
  repeat (split; [vm_compute; reflexivity|]). vm_compute. reflexivity.
Qed.

Lemma charge_case : NoDup (dao_addrs dao_at) /\ (forall k, in_charge dao_at k (purse_dao false)) /\ treasury_kept dao_at new_ways /\
  match w_council (purse_dao false) with MMultisig m => query_user_weight m 21 = Ok 1 | _ => False end.
Proof.
  split; [exact (nd_addrs _ _ (purse_new false))|]. split; [apply purse_in_charge|]. split; [apply kept_check; vm_compute; reflexivity|vm_compute; reflexivity].
Qed.

(** * What is false *)

(** no proposal that was run since is about the setting *)
Definition about {X} (A : addrs) (k : setting) (w' : world X) (id : N) : bool :=
  match oget (ct_proposals (w_ctl w')) id with Some p => any_concerns A k (pi_actions p) | None => false end.
Lemma untouched_check {X} A k (w w' : world X) : existsb (about A k w') (skipn (length (runs A w)) (rev (runs A w'))) = false -> ~ touched A k w w'.
Proof.
  intros E (id & p & a & (l & s & coins & EL & Hin) & Hp & Ha & Hc).
  assert (R : runs A w' = flat_map (fun x => match snd x with WasmExecute to (ToController (CExecuteActions i)) _ => if to =? a_controller A then [i] else [] | _ => [] end) l ++ runs A w)
    by (unfold runs; rewrite EL, flat_map_app; reflexivity).
  rewrite R, rev_app_distr in E.
  rewrite skipn_app, rev_length, Nat.sub_diag in E. rewrite (skipn_all2 (rev (runs A w))) in E by (rewrite rev_length; lia). cbn [app skipn] in E.
  rewrite (proj2 (existsb_exists (about A k w') _)) in E; [discriminate|]. exists id. split.
  - apply in_rev. rewrite rev_involutive. apply in_flat_map. eexists. split; [exact Hin|]. cbn [snd]. rewrite N.eqb_refl. left. reflexivity.
  - unfold about. rewrite Hp. apply existsb_exists. eauto.
Qed.

(** After a passed proposal has made 99 the admin of the treasury, 99 changes its assets without any proposal. *)
Definition hand_over : list tx :=
  stakes ++ [propose 100 11 [PExecuteMsgs [Some (WasmExecute 4 (ToTreasury (TrSetAdmin 99)) [])]]; vote_yes 110 11 1; execute 1100 12 1].
Definition stranger : list tx := [mk_tx 60 (clock 1200) 99 (WasmExecute 4 (ToTreasury (TrUpdateAssets [Native 71] [Native 70])) [])].
Lemma stranger_changes : exists (w0 : world book) ts1 ts2 w w', new_dao dao_at w0 /\ new_treasury dao_at w0 /\ w = world_run chain dao_at w0 ts1 /\
  w' = world_run chain dao_at w ts2 /\ lasting w' /\ timely 0 (ts1 ++ ts2) /\ calm dao_at w' /\ ~ unchanged OfAssets w w' /\ ~ touched dao_at OfAssets w w'.
Proof.
  exists (purse_dao false), hand_over, stranger, (world_run chain dao_at (purse_dao false) hand_over),
    (world_run chain dao_at (world_run chain dao_at (purse_dao false) hand_over) stranger).
  split; [apply purse_new|]. split; [apply purse_treasury|]. split; [reflexivity|]. split; [reflexivity|]. split; [apply lasting_check; vm_compute; reflexivity|].
  split; [vm_compute; repeat split; discriminate|]. split; [apply calm_check; vm_compute; reflexivity|]. split; [|apply untouched_check; vm_compute; reflexivity].
  intros (E & _). apply (f_equal (fun m => ohas m 71)) in E. revert E. vm_compute. discriminate.
Qed.

(** Proposal 2 passes early and has the actions of proposal 1, which nobody voted on, run: they rename the DAO. *)
Definition coup : list tx :=
  stakes ++ [propose 100 12 [PUpdateMetadata renamed]; propose 101 11 [PExecuteMsgs [Some (run_order dao_at 1)]]; vote_yes 110 11 2; execute 300 12 2].
Definition no_pass {X} (w : world X) (k : setting) (A : addrs) (id : N) : bool :=
  match oget (g_polls (w_gov w)) id with Some p => match p_status p with Passed _ _ => negb (about A k w id) | _ => true end | None => true end.
Lemma unpassed_check {X} A k (w w' : world X) : forallb (no_pass w' k A) (runs A w') = true ->
  ~ exists id p a pl o n, ran_since A w w' id /\ oget (ct_proposals (w_ctl w')) id = Some p /\ In a (pi_actions p) /\ concerns A k a = true /\
      oget (g_polls (w_gov w')) id = Some pl /\ p_status pl = Passed o n.
Proof.
  intros E (id & p & a & pl & o & n & (l & s & coins & EL & Hin) & Hp & Ha & Hc & Hpl & Hs). rewrite forallb_forall in E.
  assert (R : In id (runs A w')).
  { unfold runs. apply in_flat_map. eexists. split; [rewrite EL; apply in_app_iff; left; exact Hin|]. cbn [snd]. rewrite N.eqb_refl. left. reflexivity. }
  specialize (E _ R). unfold no_pass in E. rewrite Hpl, Hs in E. unfold about in E. rewrite Hp in E.
  unfold any_concerns in E. rewrite (proj2 (existsb_exists (concerns A k) (pi_actions p))) in E; [discriminate|eauto].
Qed.
Lemma coup_unvoted : exists (w0 : world book) ts w', new_dao dao_at w0 /\ w' = world_run chain dao_at w0 ts /\ lasting w' /\ timely 0 ts /\
  ~ unchanged OfMetadata w0 w' /\
  ~ exists id p a pl o n, ran_since dao_at w0 w' id /\ oget (ct_proposals (w_ctl w')) id = Some p /\ In a (pi_actions p) /\ concerns dao_at OfMetadata a = true /\
      oget (g_polls (w_gov w')) id = Some pl /\ p_status pl = Passed o n.
Proof.
  exists (purse_dao true), coup, (world_run chain dao_at (purse_dao true) coup).
  split; [apply purse_new|]. split; [reflexivity|]. split; [apply lasting_check; vm_compute; reflexivity|]. split; [vm_compute; repeat split; discriminate|]. split.
  - intros E. apply (f_equal md_name) in E. revert E. vm_compute. discriminate.
  - apply unpassed_check. vm_compute. reflexivity.
Qed.

(** A DAO created by the factory, and its first stake. *)
Lemma created_settings_case : let A := addrs_of made_token in let w := world_run idle A fresh_start first_stake in
  fresh_token = Some fresh_start /\ lasting w /\ treasury_kept A fresh_start /\ unchanged OfHooks fresh_start w /\ weight_of (w_member w) 61 = 30.
Proof.
  intros A w. split; [exact (proj1 created_case)|]. split; [apply lasting_check; vm_compute; reflexivity|]. split; [apply kept_check; vm_compute; reflexivity|].
  split; vm_compute; reflexivity.
Qed.
