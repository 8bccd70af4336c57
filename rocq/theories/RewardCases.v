(** Reward weights in concrete DAOs, and how they come apart from the voting weights. *)
From Verif Require Import Base OMap OMapLemmas Assets PollModel FundsModel FundsSpec MemberModel MemberSpec Msgs ControllerModel TreasuryModel
  EnterpriseModel OutpostsModel TreasuryExamples FactoryModel FactorySpec FactoryExamples WorldModel WorldSpec WorldExamples WorldCases CreationModel
  CreationCases RewardSpec.

Definition meddlesb (A : addrs) (m : cosmos_msg) : bool :=
  match m with
  | WasmExecute to (ToFunds _) _ => to =? a_funds A
  | WasmExecute to (ToMembership _) _ => to =? a_membership A
  | _ => false
  end.
Lemma undisturbed_check {X} A (w : world X) : forallb (fun m => negb (meddlesb A m)) (all_customs w) = true -> undisturbed A w.
Proof.
  intros H id p m _ Hp Hm HM. rewrite forallb_forall in H. specialize (H m (customs_all w id p m Hp Hm)).
  destruct m; try exact HM. cbn [meddles] in HM. destruct m; try exact HM; cbn [meddlesb] in H.
  - destruct HM as (-> & _). rewrite N.eqb_refl in H. discriminate.
  - destruct m; try exact HM. subst. rewrite N.eqb_refl in H. discriminate.
Qed.

Lemma same_elems (m m' : omap N) : elems m = elems m' -> forall k, ogetN m k = ogetN m' k.
Proof. intros E k. unfold ogetN, oget. rewrite E. reflexivity. Qed.

(** Members 61 and 62 of a multisig DAO, with weights 3 and 4. *)
Definition fixed_dao : world unit :=
  mk_world
    (mk_enterprise 77 9 30 (mk_metadata 100 None None None None None None) (version 1 0 0) DaoMultisig true (Some (wiring_of dao_at None)))
    (got (ctl_instantiate (clock 50) 1 DaoMultisig (mk_gov_config (percent 30) (percent 50) None 1000 None true) (Some w_councillors) [] None)
       (mk_ctl 0 (w_config false) None oempty 0 None None None None))
    (gov_init 3)
    (got (member_instantiate (clock 50) (IMultisig 1 (Some [(61, 3); (62, 4)]) [] [] [3])) (MMultisig no_members))
    (got (member_instantiate (clock 50) (IMultisig 1 (Some [(21, 1); (22, 1); (23, 1)]) [] [] [3])) (MMultisig no_members))
    (got (funds_instantiate 3 1 (Some 2) [(61, 3); (62, 4)]) (mk_funds 0 0 0 0 oempty oempty (mk_rewards oempty oempty) (mk_rewards oempty oempty)))
    (got (treasury_instantiate 3 None None) tr_new)
    (mk_outposts 1 oempty oempty oempty 0) [] false tt.

Lemma fixed_new : new_dao dao_at fixed_dao.
Proof.
  split.
  - unfold dao_addrs, dao_at. cbn. repeat constructor; cbn; intuition discriminate.
  - reflexivity.
  - exists None. reflexivity.
  - exists (clock 50), DaoMultisig, (mk_gov_config (percent 30) (percent 50) None 1000 None true), (Some w_councillors), None. vm_compute. reflexivity.
  - reflexivity.
  - exists (clock 50), (IMultisig 1 (Some [(61, 3); (62, 4)]) [] [] [3]). vm_compute. reflexivity.
  - vm_compute. reflexivity.
  - vm_compute. reflexivity.
  - exists (clock 50), (IMultisig 1 (Some [(21, 1); (22, 1); (23, 1)]) [] [] [3]). vm_compute. reflexivity.
  - reflexivity.
Qed.

Lemma fixed_agrees u : reward_weight fixed_dao u = weight_of (w_member fixed_dao) u.
Proof. apply same_elems. vm_compute. reflexivity. Qed.

(** 62 proposes [l], votes yes with 4 of 7, and the proposal is executed. *)
Definition decided (l : list proposal_action) : list tx :=
  [to_ctl 100 62 [] (CCreateProposal l None); vote_yes 110 62 1; execute 1100 61 1].

(** New weights through the action for it: 61 leaves, 62 gets 1, 63 joins with 9. *)
Definition reshuffle : list tx := decided [PModifyMultisig [(61, 0); (62, 1); (63, 9)]].
Lemma follow_case :
  new_dao dao_at fixed_dao /\ funds_instantiate 3 1 (Some 2) [(61, 3); (62, 4)] = Ok (w_funds fixed_dao) /\
  (forall u, reward_weight fixed_dao u = weight_of (w_member fixed_dao) u) /\
  let w := world_run idle dao_at fixed_dao reshuffle in
  lasting w /\ undisturbed dao_at w /\ map (reward_weight w) [61; 62; 63] = [0; 1; 9] /\ map (weight_of (w_member w)) [61; 62; 63] = [0; 1; 9] /\
  f_min (w_funds w) = 2 /\ map (ogetN (f_eff (w_funds w))) [61; 62; 63] = [0; 0; 9] /\ f_total (w_funds w) = 9.
Proof.
  split; [exact fixed_new|]. split; [vm_compute; reflexivity|]. split; [exact fixed_agrees|].
  split; [split; vm_compute; reflexivity|]. split; [apply undisturbed_check; vm_compute; reflexivity|].
  repeat split; vm_compute; reflexivity.
Qed.

(** The same people through a custom message that sets the member list: 61 is no member any more, but still gets rewards. *)
Definition replaced : list tx :=
  decided [PExecuteMsgs [Some (WasmExecute 7 (ToMembership (MultisigMsg (MSetMembers [(62, 1); (63, 9)]))) [])]].
Lemma replaced_case : exists (A : addrs) (w0 : world unit) ts u minimum initial,
  new_dao A w0 /\ funds_instantiate (a_controller A) (a_enterprise A) minimum initial = Ok (w_funds w0) /\
  (forall v, reward_weight w0 v = weight_of (w_member w0) v) /\ lasting (world_run idle A w0 ts) /\
  weight_of (w_member (world_run idle A w0 ts)) u = 0 /\ reward_weight (world_run idle A w0 ts) u = 3 /\
  ogetN (f_eff (w_funds (world_run idle A w0 ts))) u = 3.
Proof.
  exists dao_at, fixed_dao, replaced, 61, (Some 2), [(61, 3); (62, 4)].
  split; [exact fixed_new|]. split; [vm_compute; reflexivity|]. split; [exact fixed_agrees|].
  split; [split; vm_compute; reflexivity|]. repeat split; vm_compute; reflexivity.
Qed.

(** A distribution right after the creation of a token DAO goes to its council member, who has staked nothing. *)
Definition fresh_token : option (world unit) :=
  match fa_tx f0 (create 1000 token_dao) with
  | Ok (_, log) => match births_of (told 1000) (clock 50) f_self log with Ok b => dao_of made_token b tt | Err _ => None end
  | Err _ => None
  end.
Lemma early_rewards_case :
  match fresh_token with
  | Some w0 =>
      let A := addrs_of made_token in
      let w := world_run idle A w0 [mk_tx 60 (clock 60) 200 (WasmExecute (a_funds A) (ToFunds FDistributeNative) [(7, 1000)])] in
      map (weight_of (w_member w)) [51; 52; 61] = [0; 0; 0] /\ map (reward_weight w) [51; 52; 61] = [1; 1; 0] /\
      claimable (w_funds w) 51 (Native 7) = Ok 500
  | None => False
  end.
Proof. vm_compute. repeat split. Qed.

(** The general statement without the condition on the start fails. *)
Lemma early_refuted : exists (A : addrs) (w0 : world unit) ts u minimum initial,
  new_dao A w0 /\ funds_instantiate (a_controller A) (a_enterprise A) minimum initial = Ok (w_funds w0) /\
  lasting (world_run idle A w0 ts) /\ undisturbed A (world_run idle A w0 ts) /\
  weight_of (w_member (world_run idle A w0 ts)) u = 0 /\ reward_weight (world_run idle A w0 ts) u = 1.
Proof.
  exists dao_at, (mk_world (w_enterprise (dao true)) (w_ctl (dao true)) (w_gov (dao true)) (w_member (dao true)) (w_council (dao true))
    (got (funds_instantiate 3 1 None [(21, 1); (22, 1); (23, 1)]) (w_funds (dao true))) (w_treasury (dao true)) (w_outposts (dao true)) [] false tt),
    usual, 21, None, [(21, 1); (22, 1); (23, 1)].
  split; [destruct (start_new true); split; assumption|]. split; [vm_compute; reflexivity|]. split; [split; vm_compute; reflexivity|].
  split; [apply undisturbed_check; vm_compute; reflexivity|]. split; vm_compute; reflexivity.
Qed.
