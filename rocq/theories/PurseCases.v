(** Cases of what the treasury sends, and what is false. *)
From Coq Require Import Permutation.
From Verif Require Import Base OMap OMapLemmas Assets PollModel PollSpec FundsModel MemberModel MemberSpec Msgs ControllerModel
  ControllerSpec TreasuryModel EnterpriseModel OutpostsModel WorldModel WorldSpec WorldExamples FacadeSpec LedgerSpec LedgerExamples FactorySpec FactoryExamples CreationModel CreationCases RewardCases ExitCases PurseSpec.

(** The DAO of the examples on a chain with ledgers: the treasury (4) has 1000 coins of denom 70 and 50 tokens of 80. *)
Definition funded : book :=
  mk_book (fun d u => if d =? 70 then (if (u =? 4) || (u =? 11) || (u =? 12) then 1000 else 0) else 0)
          (fun t u => if (t =? 80) && (u =? 4) then 50 else 0) (fun _ _ => 0).
Definition purse_dao (early : bool) : world book :=
  let w := dao early in
  mk_world (w_enterprise w) (w_ctl w) (w_gov w) (w_member w) (w_council w) (w_funds w)
    (got (treasury_instantiate 3 (Some [Native 70; Cw20 80]) None) (w_treasury w)) (w_outposts w) [] false funded.

Lemma purse_new early : new_dao dao_at (purse_dao early).
Proof. destruct (start_new early) as [H1 H2 H3 H4 H5 H6 H7 H8 H9 H10]. split; assumption. Qed.
Lemma purse_treasury early : new_treasury dao_at (purse_dao early).
Proof. exists (Some [Native 70; Cw20 80]), None. vm_compute. reflexivity. Qed.

(** Proposal 1: pay 99, distribute 7 coins and 4 tokens to the members, one message of choice through the treasury, and
    another as a message of choice to the treasury. Proposal 2 is turned down. *)
Definition spending : list tx :=
  stakes ++
  [propose 100 11 [PRequestFunding None 99 [(Native 70, 10); (Cw20 80, 5)]; PDistributeFunds [(Native 70, 7); (Cw20 80, 4)];
                   PExecuteTreasuryMsgs [Some (BankSend 98 [(70, 1)])] None;
                   PExecuteMsgs [Some (WasmExecute 4 (ToTreasury (TrSpend 97 [(Native 70, 2)])) [])]];
   propose 101 12 [PRequestFunding None 96 [(Native 70, 900)]];
   vote_yes 110 11 1; to_ctl 111 11 [] (CCastVote 2 No); execute 1102 12 1; execute 1103 12 2].
Definition spent : world book := world_run chain dao_at (purse_dao false) spending.

Definition sets_admin (t : addr) (x : addr * cosmos_msg) : bool :=
  match snd x with WasmExecute to (ToTreasury (TrSetAdmin _)) _ => to =? t | _ => false end.
Lemma kept_check {X} A (w : world X) : existsb (sets_admin (a_treasury A)) (w_log w) = false -> treasury_kept A w.
Proof.
  intros E s a coins H. rewrite (proj2 (existsb_exists (sets_admin (a_treasury A)) (w_log w))) in E; [discriminate|]. eexists. split; [exact H|]. cbn. apply N.eqb_refl.
Qed.
Lemma lasting_check {X} (w : world X) : w_upgraded w = false -> (N.of_nat (length (w_log w)) <? 2 ^ 64) = true -> lasting w.
Proof. intros H1 H2. split; [exact H1|]. apply N.ltb_lt. exact H2. Qed.

(** the proposals that were run, and their messages *)
Definition tame_msg (m : cosmos_msg) : bool :=
  match m with WasmExecute to _ _ => negb ((to =? 3) || (to =? 2) || (to =? 7)) | _ => true end.
Definition calm_at {X} (w : world X) (id : N) : bool :=
  match oget (ct_proposals (w_ctl w)) id with Some p => forallb tame_msg (customs p) | None => true end.
Lemma calm_check {X} (w : world X) : forallb (calm_at w) (runs dao_at w) = true -> calm dao_at w.
Proof.
  intros H id p m Ha Hp Hm.
  assert (Hin : In id (runs dao_at w)).
  { unfold runs. apply in_flat_map. eexists. split; [exact Ha|]. cbn [snd run_order]. rewrite N.eqb_refl. left. reflexivity. }
  rewrite forallb_forall in H. specialize (H _ Hin). unfold calm_at in H. rewrite Hp in H. rewrite forallb_forall in H. specialize (H _ Hm).
  destruct m; try exact I. cbn in H |- *. repeat split; intros ->; discriminate H.
Qed.

Lemma exact_case : new_dao dao_at (purse_dao false) /\ new_treasury dao_at (purse_dao false) /\ lasting spent /\ treasury_kept dao_at spent /\
  runs dao_at spent = [1] /\
  sent_by 4 spent = [BankSend 97 [(70, 2)]; BankSend 98 [(70, 1)]; WasmExecute 6 (ToFunds FDistributeNative) [(70, 7)];
    WasmExecute 80 (ToCw20 (Cw20Send 6 4 HookDistribute)) []; WasmExecute 80 (ToCw20 (Cw20Transfer 99 5)) []; BankSend 99 [(70, 10)]].
Proof.
  split; [apply purse_new|]. split; [apply purse_treasury|]. split; [apply lasting_check; vm_compute; reflexivity|]. split; [apply kept_check; vm_compute; reflexivity|].
  split; vm_compute; reflexivity.
Qed.

Lemma voted_case : timely 0 spending /\ calm dao_at spent /\
  option_map pi_executed_at (oget (ct_proposals (w_ctl spent)) 2) = Some (Some (clock 1103)).
Proof.
  split; [vm_compute; repeat split; discriminate|]. split; [apply calm_check; vm_compute; reflexivity|]. vm_compute. reflexivity.
Qed.

(** coins of denom 70 *)
Definition coins_70 : list coin -> N := in_coins (HAmount (Native 70)).
Definition banked (m : cosmos_msg) : N := match m with BankSend _ coins => coins_70 coins | _ => 0 end.
Lemma chain_keeps u : keeps_for chain u coins_70 banked (has u (HAmount (Native 70))).
Proof.
  split.
  - intros x s to coins x' H. pose proof (paid_coins _ _ _ _ _ u (HAmount (Native 70)) H) as E. unfold coins_70. destruct (s =? u), (to =? u); lia.
  - intros w e s to m coins x subs d H. cbn [x_exec chain] in H. cbn [banked].
    assert (E : bk_bank x = bk_bank (w_ext w)).
    { destruct m; try (injection H as <- _ _; reflexivity); destruct m; try (injection H as <- _ _; reflexivity);
        apply bind_ok in H; destruct H as (c & _ & H); injection H as <- _ _; reflexivity. }
    cbn [has]. rewrite E. lia.
  - intros w e self id r x subs H. cbn [x_reply chain] in H. injection H as <- _. lia.
  - intros w e s m x d H. cbn [x_msg chain] in H. destruct m; try (injection H as <- _; lia).
    apply bind_ok in H. destruct H as (y & Hy & H). injection H as <- _. pose proof (paid_coins _ _ _ _ _ u (HAmount (Native 70)) Hy) as E.
    cbn [banked]. unfold coins_70. destruct (s =? u), (to =? u); lia.
Qed.

Lemma balance_case : keeps_for chain 4 coins_70 banked (has 4 (HAmount (Native 70))) /\
  has 4 (HAmount (Native 70)) (w_ext (purse_dao false)) = 1000 /\
  has 4 (HAmount (Native 70)) (w_ext spent) = 980 /\
  lsum (fun id => lsum (price coins_70 banked) (orders_of dao_at spent id)) (runs dao_at spent) = 20.
Proof. split; [apply chain_keeps|]. split; [reflexivity|]. split; vm_compute; reflexivity. Qed.

(** A passed proposal makes 99 the admin of the treasury; then 99 takes what it wants without any proposal. *)
Definition given_up : list tx :=
  stakes ++ [propose 100 11 [PExecuteMsgs [Some (WasmExecute 4 (ToTreasury (TrSetAdmin 99)) [])]]; vote_yes 110 11 1; execute 1100 12 1;
             mk_tx 60 (clock 1200) 99 (WasmExecute 4 (ToTreasury (TrSpend 99 [(Native 70, 500)])) [])].
Lemma given_up_unordered : exists (w0 : world book) ts w, new_dao dao_at w0 /\ new_treasury dao_at w0 /\ w = world_run chain dao_at w0 ts /\ lasting w /\
  timely 0 ts /\ calm dao_at w /\ sent_by (a_treasury dao_at) w = [BankSend 99 [(70, 500)]] /\ ordered dao_at w = [].
Proof.
  exists (purse_dao false), given_up, (world_run chain dao_at (purse_dao false) given_up).
  split; [apply purse_new|]. split; [apply purse_treasury|]. split; [reflexivity|]. split; [apply lasting_check; vm_compute; reflexivity|].
  split; [vm_compute; repeat split; discriminate|]. split; [apply calm_check; vm_compute; reflexivity|]. split; vm_compute; reflexivity.
Qed.

(** Proposal 2 passes early and orders the actions of proposal 1, which nobody has voted on. *)
Definition hijacked : list tx :=
  stakes ++ [propose 100 12 [PRequestFunding None 12 [(Native 70, 500)]]; propose 101 11 [PExecuteMsgs [Some (run_order dao_at 1)]]; vote_yes 110 11 2; execute 300 12 2].
Lemma hijacked_unvoted : exists (w0 : world book) ts w p pl ends, new_dao dao_at w0 /\ new_treasury dao_at w0 /\ w = world_run chain dao_at w0 ts /\ lasting w /\
  treasury_kept dao_at w /\ timely 0 ts /\ sent_by (a_treasury dao_at) w = [BankSend 12 [(70, 500)]] /\ runs dao_at w = [1; 2] /\
  oget (ct_proposals (w_ctl w)) 1 = Some p /\ orders dao_at p = [BankSend 12 [(70, 500)]] /\
  oget (g_polls (w_gov w)) 1 = Some pl /\ p_status pl = InProgress ends.
Proof.
  set (w := world_run chain dao_at (purse_dao true) hijacked).
  destruct (oget (ct_proposals (w_ctl w)) 1) as [p|] eqn:Ep; [|vm_compute in Ep; discriminate].
  destruct (oget (g_polls (w_gov w)) 1) as [pl|] eqn:El; [|vm_compute in El; discriminate].
  exists (purse_dao true), hijacked, w, p, pl, (1100 * NANOS).
  split; [apply purse_new|]. split; [apply purse_treasury|]. split; [reflexivity|]. split; [apply lasting_check; vm_compute; reflexivity|].
  split; [apply kept_check; vm_compute; reflexivity|]. split; [vm_compute; repeat split; discriminate|]. split; [vm_compute; reflexivity|]. split; [vm_compute; reflexivity|].
  split; [exact Ep|]. split; [vm_compute in Ep; injection Ep as <-; reflexivity|]. split; [exact El|]. vm_compute in El. injection El as <-. reflexivity.
Qed.

(** A DAO created by the factory. *)
Lemma created_purse_case : let A := addrs_of made_token in let w := world_run idle A fresh_start first_stake in
  fresh_token = Some fresh_start /\ lasting w /\ treasury_kept A w /\ weight_of (w_member w) 61 = 30.
Proof.
  intros A w. split; [exact (proj1 created_case)|]. split; [apply lasting_check; vm_compute; reflexivity|]. split; [apply kept_check; vm_compute; reflexivity|vm_compute; reflexivity].
Qed.
