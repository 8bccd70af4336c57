(** Cases of the properties of the facade, and what is false. *)
From Verif Require Import Base OMap OMapLemmas Assets PollModel PollSpec FundsModel MemberModel MemberSpec Msgs ControllerModel
  ControllerSpec TreasuryModel EnterpriseModel OutpostsModel OutpostsExamples WorldModel WorldSpec WorldExamples FacadeModel FacadeV1Model FacadeSpec.

(** No other DAOs but the old one at 500. *)
Definition elsewhere : FacadeModel.foreign := mk_foreign (fun a => a =? 500) (fun _ => Err EStd) (fun _ => Err EStd) (fun _ => false).
Definition info_500 : old_info :=
  mk_old_info 5 (mk_metadata 100 None None None None None None) (mk_old_gov (percent 30) (percent 50) None 1000 (DTime 2000) None false)
    (Some (mk_facade_council [21; 22] [TUpdateMetadata] (percent 10) (percent 20))) DaoToken 50 9 6 5.
(** General proposal 1 ends at second 1000 with 40 yes and 10 no of 100; council proposal 2 with 1 yes of 5 *)
Definition old_1 : old_proposal := mk_old_proposal 1 General OSInProgress (AtTime (1000 * NANOS)) [OUpdateMinimumWeight 5] (of_list [(0, 40); (1, 10)]) 100.
Definition old_2 : old_proposal := mk_old_proposal 2 Council OSInProgress (AtTime (1000 * NANOS)) [OUpdateMinimumWeight 6] (of_list [(0, 1)]) 5.
Definition dao_500 : FacadeV1Model.old_dao :=
  FacadeV1Model.mk_old_dao (Ok info_500) (fun id => if id =? 1 then Ok old_1 else if id =? 2 then Ok old_2 else Err EStd) (fun _ _ _ => Ok [old_1; old_2]) (fun _ => Err EStd).
Definition olds (a : addr) : FacadeV1Model.old_dao := dao_500.
Definition codes (v : N) : res version_info := if v =? version 1 0 0 then Ok (mk_version_info (version 1 0 0) 1 2 3 4 5 6 7 8 9 10 11 12) else Err EStd.

Lemma usual_lasting : lasting (world_run idle dao_at (dao false) usual).
Proof. vm_compute. split; reflexivity. Qed.
Definition replaces_admin (x : addr * cosmos_msg) : bool :=
  match snd x with WasmExecute to (ToTreasury (TrSetAdmin _)) _ => to =? 4 | _ => false end.
Lemma kept_by {X} (w : world X) : existsb replaces_admin (w_log w) = false -> treasury_kept dao_at w.
Proof.
  intros E s a coins H. rewrite (proj2 (existsb_exists replaces_admin (w_log w))) in E; [discriminate|]. eexists. split; [exact H|reflexivity].
Qed.
Lemma usual_kept : treasury_kept dao_at (world_run idle dao_at (dao false) usual).
Proof. apply kept_by. vm_compute. reflexivity. Qed.

Lemma addresses_case : new_dao dao_at (dao false) /\ lasting (world_run idle dao_at (dao false) usual) /\ tr_admin (w_treasury (dao false)) = a_controller dao_at /\
  treasury_kept dao_at (world_run idle dao_at (dao false) usual) /\
  facade_ask idle dao_at elsewhere olds (world_run idle dao_at (dao false) usual) (clock 1200) 4 (QMemberInfo 11) = Ok (AnMember (60 * 10 ^ 18 / 105)) /\
  ~ In 500 (dao_addrs dao_at) /\ fr_old_info elsewhere 500 = true.
Proof.
  split; [apply start_new|]. split; [exact usual_lasting|]. split; [reflexivity|]. split; [exact usual_kept|]. split; [vm_compute; reflexivity|].
  split; [|reflexivity]. vm_compute. intuition discriminate.
Qed.

(** A passed proposal makes 99 the admin of the treasury. *)
Definition handover : list tx :=
  stakes ++ [propose 100 11 [PExecuteMsgs [Some (WasmExecute 4 (ToTreasury (TrSetAdmin 99)) [])]]; vote_yes 110 11 1; execute 1100 12 1].
Lemma treasury_address_lost : exists (w0 : world unit) ts w, new_dao dao_at w0 /\ w = world_run idle dao_at w0 ts /\ lasting w /\ tr_admin (w_treasury w0) = a_controller dao_at /\
  is_ok (facade_ask idle dao_at elsewhere olds w (clock 1200) (a_enterprise dao_at) (QMemberInfo 11)) = true /\
  is_ok (facade_ask idle dao_at elsewhere olds w (clock 1200) (a_treasury dao_at) (QMemberInfo 11)) = false.
Proof.
  exists (dao false), handover, (world_run idle dao_at (dao false) handover). split; [apply start_new|]. split; [reflexivity|].
  split; [vm_compute; split; reflexivity|]. split; [reflexivity|]. split; vm_compute; reflexivity.
Qed.

Lemma backed_case : new_dao dao_at (dao false) /\ lasting (world_run idle dao_at (dao false) usual) /\
  backed idle (dao false) DaoDenom 70 /\ backed idle (world_run idle dao_at (dao false) usual) DaoDenom 70 /\
  messages dao_at DaoDenom 70 (AStake (StDenom 15 8)) = Some [WasmExecute 7 (ToMembership (DenomMsg (DStake (Some 15)))) [(70, 8)]].
Proof.
  split; [apply start_new|]. split; [exact usual_lasting|].
  split; [eapply BackedDenom; vm_compute; reflexivity|]. split; [eapply BackedDenom; vm_compute; reflexivity|reflexivity].
Qed.

(** The message for unstaking does not depend on the type of the DAO: the membership contract may not understand it. *)
Lemma wrong_unstaking : exists (w0 : world unit) ts w m, new_dao dao_at w0 /\ w = world_run idle dao_at w0 ts /\ lasting w /\ backed idle w DaoDenom 70 /\
  en_type (w_enterprise w) = DaoDenom /\ v2_adapt idle dao_at w (clock 1200) (a_enterprise dao_at) (AUnstake (UnCw20 5)) = Ok [m] /\
  world_step idle dao_at w (mk_tx 60 (clock 1200) 11 m) = w.
Proof.
  exists (dao false), stakes, (world_run idle dao_at (dao false) stakes), (call_membership dao_at (TokenMsg (TCommon (SUnstake 5)))). split; [apply start_new|]. split; [reflexivity|].
  split; [vm_compute; split; reflexivity|]. split; [eapply BackedDenom; vm_compute; reflexivity|]. split; [reflexivity|]. split; vm_compute; reflexivity.
Qed.

(** * Execution *)

Definition abroad : list tx :=
  stakes ++ [propose 100 11 [PUpdateAssets (Some to_juno) [Native 7] []; PUpdateMinimumWeight 5; PDeployTreasury d_osmo; PExecuteMsgs [Some (WasmExecute 5 (ToOutposts (OpDeploy d_juno2)) [])]]; vote_yes 110 11 1].
Definition abroad_actions : list proposal_action := [PUpdateAssets (Some to_juno) [Native 7] []; PUpdateMinimumWeight 5; PDeployTreasury d_osmo].
Definition abroad_plain : list tx := stakes ++ [propose 100 11 abroad_actions; vote_yes 110 11 1].

Lemma abroad_case : new_dao dao_at (dao false) /\ let w := world_run idle dao_at (dao false) abroad_plain in lasting w /\
  exists p s' subs, oget (ct_proposals (w_ctl w)) 1 = Some p /\ no_own_calls dao_at p /\
  v2_adapt idle dao_at w (clock 1100) (a_enterprise dao_at) (AExecute 1) = Ok [BankSend 5 [(ULUNA, 2)]; WasmExecute 3 (ToController (CExecuteProposal 1)) []] /\
  ctl_execute (ctl_oracle_of idle dao_at w) (a_controller dao_at) (w_ctl w) (clock 1100) (a_controller dao_at) [] (CExecuteActions 1) = Ok (s', subs) /\ outposts_calls dao_at subs = 2.
Proof.
  split; [apply start_new|]. cbv zeta. split; [vm_compute; split; reflexivity|]. eexists. eexists. eexists.
  split; [vm_compute; reflexivity|]. split; [intros m H; vm_compute in H; contradiction|]. split; [vm_compute; reflexivity|]. split; [vm_compute; reflexivity|]. vm_compute. reflexivity.
Qed.

(** A proposal with a message of its own to the outposts contract: it is not paid for. *)
Lemma own_calls_unpaid : exists (w0 : world unit) ts w s' subs, new_dao dao_at w0 /\ w = world_run idle dao_at w0 ts /\ lasting w /\
  v2_adapt idle dao_at w (clock 1100) (a_enterprise dao_at) (AExecute 1) = Ok [BankSend 5 [(ULUNA, 2)]; WasmExecute 3 (ToController (CExecuteProposal 1)) []] /\
  ctl_execute (ctl_oracle_of idle dao_at w) (a_controller dao_at) (w_ctl w) (clock 1100) (a_controller dao_at) [] (CExecuteActions 1) = Ok (s', subs) /\ outposts_calls dao_at subs = 3.
Proof.
  exists (dao false), abroad, (world_run idle dao_at (dao false) abroad). eexists. eexists. split; [apply start_new|]. split; [reflexivity|]. split; [vm_compute; split; reflexivity|].
  split; [vm_compute; reflexivity|]. split; [vm_compute; reflexivity|]. vm_compute. reflexivity.
Qed.

(** The first deployment on a chain needs two coins: one with the order, one more when the proxy reports. *)
Lemma deployment_needs_two : exists s1 out1 s2 out2,
  outposts_execute oo (at_ 1) op0 BOSS (OpDeploy d_juno) = Ok (s1, out1) /\ sent_abroad ULUNA out1 = 1 /\
  outposts_execute oo (at_ 4) s1 (from_proxy to_juno 900) (OpCallback 1 (Some 9001)) = Ok (s2, out2) /\ sent_abroad ULUNA out2 = 1.
Proof. eexists. eexists. eexists. eexists. split; [vm_compute; reflexivity|]. split; [vm_compute; reflexivity|]. split; vm_compute; reflexivity. Qed.

(** * Answers *)

Lemma holders_by (m : member_state) l : okeys (m_weights (members_of m)) = l -> forall u, weight_of m u <> 0 -> In u l.
Proof.
  intros <- u H. unfold weight_of, member_weight, ogetN in H. destruct (oget (m_weights (members_of m)) u) as [n|] eqn:E; [|destruct (H eq_refl)].
  apply okeys_In. exists n. exact E.
Qed.

(** 11 and 12 stake, 12 unstakes 10; proposal 1 is being voted on. *)
Definition asking : list tx :=
  stakes ++ [propose 100 11 [PUpdateMinimumWeight 5]; vote_yes 110 11 1; to_ctl 111 12 [] (CCastVote 1 No); unstake 120 12 10].
Lemma answers_case : new_dao dao_at (dao false) /\ let w := world_run idle dao_at (dao false) asking in lasting w /\ backed idle w (en_type (w_enterprise w)) 70 /\
  (forall u, weight_of (w_member w) u <> 0 -> In u [11; 12]) /\
  let ask := v2_query idle dao_at w (clock 200) (a_enterprise dao_at) in
  ask QTotalStaked = Ok (AnTotal 90) /\ ask (QUserStake 12 None None) = Ok (AnStake (USDenom 30)) /\
  (exists v, ask (QProposal 1) = Ok (AnProposal v) /\ ask (QProposals None None None) = Ok (AnProposals [v])) /\
  (exists v v', ask (QProposalVotes 1 None None) = Ok (AnVotes [v; v']) /\ v_voter v' = 12 /\ v_amount v' = 30) /\
  ask (QClaims 12) = Ok (AnClaims [(CADenom 10, RTimestamp (2120 * NANOS))]) /\
  ask (QReleasableClaims 12) = Ok (AnClaims []) /\ ask QMigrationStage = Ok (AnStage StageCompleted).
Proof.
  split; [apply start_new|]. cbv zeta. split; [vm_compute; split; reflexivity|]. split; [eapply BackedDenom; vm_compute; reflexivity|].
  split; [apply holders_by; vm_compute; reflexivity|].
  split; [vm_compute; reflexivity|]. split; [vm_compute; reflexivity|].
  split; [eexists; split; vm_compute; reflexivity|]. split; [eexists; eexists; split; [vm_compute; reflexivity|split; vm_compute; reflexivity]|].
  split; [vm_compute; reflexivity|]. split; vm_compute; reflexivity.
Qed.

Lemma info_case : new_dao dao_at (dao false) /\ lasting (world_run idle dao_at (dao false) usual) /\
  exists i, v2_query idle dao_at (world_run idle dao_at (dao false) usual) (clock 1200) (a_enterprise dao_at) QDaoInfo = Ok (AnInfo i) /\
    fi_membership i = 70 /\ fg_veto (fi_gov i) = percent 50 /\ fi_code_version i = 10000 /\ exists k, fi_council i = Some k /\ fk_members k = [21; 22; 23].
Proof.
  split; [apply start_new|]. split; [exact usual_lasting|]. eexists. split; [vm_compute; reflexivity|]. split; [reflexivity|]. split; [reflexivity|]. split; [reflexivity|].
  eexists. split; reflexivity.
Qed.

(** A DAO with 101 council members: 200 to 300 *)
Definition hundred_one : list N := map (fun k => 200 + N.of_nat k) (seq 0 101).
Definition big_spec : council_spec := mk_council_spec hundred_one (percent 50) (percent 50) None.
Definition big_dao : world unit :=
  let w := dao false in
  mk_world (w_enterprise w) (got (ctl_instantiate (clock 50) 1 DaoDenom (w_config false) (Some big_spec) [] None) (w_ctl w)) (w_gov w) (w_member w)
    (got (member_instantiate (clock 50) (IMultisig 1 (Some (map (fun u => (u, 1)) hundred_one)) [] [] [3])) (MMultisig no_members))
    (w_funds w) (w_treasury w) (w_outposts w) [] false tt.
Lemma big_new : new_dao dao_at big_dao.
Proof.
  destruct (start_new false) as [H1 H2 H3 H4 H5 H6 H7 H8 H9 H10]. split; try assumption.
  - exists (clock 50), DaoDenom, (w_config false), (Some big_spec), None. vm_compute. reflexivity.
  - exists (clock 50), (IMultisig 1 (Some (map (fun u => (u, 1)) hundred_one)) [] [] [3]). vm_compute. reflexivity.
Qed.
Lemma council_cut_off : exists (w0 : world unit) ts w i k u, new_dao dao_at w0 /\ w = world_run idle dao_at w0 ts /\ lasting w /\
  v2_query idle dao_at w (clock 100) (a_enterprise dao_at) QDaoInfo = Ok (AnInfo i) /\ fi_council i = Some k /\ weight_of (w_council w) u = 1 /\ ~ In u (fk_members k).
Proof.
  exists big_dao, [], big_dao. eexists. eexists. exists 300. split; [exact big_new|]. split; [reflexivity|]. split; [vm_compute; split; reflexivity|].
  split; [vm_compute; reflexivity|]. split; [reflexivity|]. split; [vm_compute; reflexivity|].
  intros H. vm_compute in H. repeat (destruct H as [H|H]; [discriminate|]). exact H.
Qed.

Lemma codes_collide : exists n, code_version (version 1 0 100) = Ok n /\ code_version (version 1 1 0) = Ok n /\ version 1 0 100 <> version 1 1 0.
Proof. exists 10100. split; [vm_compute; reflexivity|]. split; [vm_compute; reflexivity|]. vm_compute. discriminate. Qed.
Lemma codes_case : code_version (version 1 2 3) = Ok 10203 /\ small_version (1, 2, 3) /\ small_version (1, 2, 4).
Proof. split; [vm_compute; reflexivity|]. unfold small_version. cbn. repeat split; reflexivity. Qed.

(** * DAOs of the old code *)

Lemma translation_case : od_info dao_500 = Ok info_500 /\ plain_action (PUpdateMinimumWeight 7) /\
  v1_adapt codes 500 dao_500 (ACreateWithToken [PUpdateMinimumWeight 7; PUpgradeDao (version 1 1 0) []; PExecuteMsgs []] (Some 33) 20) =
    Ok [OldSend20 50 500 20 (Some [OUpdateMinimumWeight 7; OUpgradeDao 7 MIGRATE_TREASURY; OExecuteMsgs []])].
Proof. split; [reflexivity|]. split; [exact I|]. vm_compute. reflexivity. Qed.

(** Treasuries on other chains, the owner of the deposit and the user for whom to stake are ignored. *)
Lemma targets_ignored registry t l add remove add' remove' to :
  map_action registry (PRequestFunding t to l) = map_action registry (PRequestFunding None to l) /\
  map_action registry (PUpdateAssets t add remove) = map_action registry (PUpdateAssets None add remove) /\
  map_action registry (PUpdateNfts t add' remove') = map_action registry (PUpdateNfts None add' remove').
Proof. repeat split. Qed.
Lemma users_ignored registry dao d actions o o' n u u' tokens :
  v1_adapt registry dao d (ACreateWithToken actions o n) = v1_adapt registry dao d (ACreateWithToken actions o' n) /\
  v1_adapt registry dao d (AStake (StCw20 u n)) = v1_adapt registry dao d (AStake (StCw20 u' n)) /\
  v1_adapt registry dao d (AStake (StCw721 u tokens)) = v1_adapt registry dao d (AStake (StCw721 u' tokens)).
Proof. repeat split. Qed.
Lemma funding_misdirected : exists registry t to l o, t <> None /\ map_action registry (PRequestFunding t to l) = Ok o /\ unmap_action o = PRequestFunding None to l.
Proof. exists codes, (Some to_juno), 11, [(Native 70, 5)]. eexists. split; [discriminate|]. split; reflexivity. Qed.

Lemma old_status_case : od_proposal dao_500 1 = Ok old_1 /\ od_info dao_500 = Ok info_500 /\ op_expires old_1 = AtTime (1000 * NANOS) /\
  real_votes (op_results old_1) (op_total old_1) /\ exists v, v1_query (clock 1000) 500 dao_500 (QProposal 1) = Ok (AnProposal v) /\ fp_status v = PSPassed.
Proof.
  split; [reflexivity|]. split; [reflexivity|]. split; [reflexivity|]. split.
  - split; [|split; vm_compute; reflexivity]. intros k H. unfold old_1 in H. cbn [op_results of_list fold_left fst snd] in H. rewrite !oget_oset in H.
    destruct (N.eqb_spec 1 k); [lia|]. destruct (N.eqb_spec 0 k); [lia|]. destruct H. apply oget_empty.
  - eexists. split; [vm_compute; reflexivity|reflexivity].
Qed.

(** A council proposal that passes by the settings of the council is shown as rejected: it is judged by those of the DAO. *)
Lemma council_misjudged : exists e dao d i k p v, od_info d = Ok i /\ oi_council i = Some k /\ od_proposal d 2 = Ok p /\ op_type p = Council /\
  judged_by (fk_quorum k) (fk_threshold k) (fk_threshold k) (op_results p) (op_total p) (Passed 0 (votes_on (op_results p) Yes)) /\
  v1_query e dao d (QProposal 2) = Ok (AnProposal v) /\ fp_status v = PSRejected.
Proof.
  exists (clock 1000), 500, dao_500, info_500, (mk_facade_council [21; 22] [TUpdateMetadata] (percent 10) (percent 20)), old_2. eexists.
  split; [reflexivity|]. split; [reflexivity|]. split; [reflexivity|]. split; [reflexivity|]. split.
  - unfold judged_by. apply V_yes; unfold reaches; vm_compute.
    + left. split; [discriminate|discriminate].
    + intros [[_ H]|[H _]]; [apply H; reflexivity|discriminate].
    + left. split; [discriminate|discriminate].
    + intros [[_ H]|[H _]]; [exfalso; apply H; reflexivity|discriminate].
  - split; [vm_compute; reflexivity|reflexivity].
Qed.
