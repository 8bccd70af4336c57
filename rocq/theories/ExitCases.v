(** Members who leave, and one who cannot. *)
From Verif Require Import Base OMap OMapLemmas Assets PollModel PollSpec FundsModel FundsSpec MemberModel MemberSpec Msgs ControllerModel
  ControllerSpec TreasuryModel EnterpriseModel OutpostsModel FactoryModel FactorySpec FactoryExamples WorldModel WorldSpec TreasuryExamples WorldExamples WorldCases
  CreationModel CreationCases LedgerSpec LedgerExamples LedgerCases RewardSpec RewardCases ExitSpec.

Definition fitb (f : funds) (r : rewards) : bool :=
  forallb (fun a => forallb (fun u => is_ok (claimable_side f r u a)) (okeys (f_eff f) ++ okeys (r_dists r)))
    (okeys (r_global r) ++ flat_map okeys (ovals (r_dists r))).

Lemma fit_check f r : fitb f r = true -> forall u a, exists n, claimable_side f r u a = Ok n.
Proof.
  intros H u a. unfold fitb in H. rewrite forallb_forall in H.
  assert (Z : forall g, claimable_side f r u a = user_reward g None 0 -> exists n, claimable_side f r u a = Ok n).
  { intros g ->. unfold user_reward, new_user_reward, uint_csub. cbn [bind]. exists 0.
    replace (0 <=? g) with true by (symmetry; apply N.leb_le; lia). reflexivity. }
  assert (Y : forall w, claimable_side f r u a = user_reward 0 None w -> exists n, claimable_side f r u a = Ok n).
  { intros w ->. exists 0. unfold user_reward, new_user_reward, uint_csub. change (0 <=? 0) with true. cbn [bind]. rewrite N.mul_0_r. reflexivity. }
  destruct (in_dec N.eq_dec a (okeys (r_global r) ++ flat_map okeys (ovals (r_dists r)))) as [Ha|Ha].
  - specialize (H a Ha). rewrite forallb_forall in H. destruct (in_dec N.eq_dec u (okeys (f_eff f) ++ okeys (r_dists r))) as [Hu|Hu].
    + specialize (H u Hu). destruct (claimable_side f r u a) as [n|]; [eauto|discriminate].
    + apply (Z (ogetN (r_global r) a)). unfold claimable_side, get_dist, user_dists.
      assert (E1 : oget (f_eff f) u = None) by (destruct (oget (f_eff f) u) as [x|] eqn:E; [|reflexivity]; exfalso; apply Hu, in_or_app; left; apply okeys_In; eauto).
      assert (E2 : oget (r_dists r) u = None) by (destruct (oget (r_dists r) u) as [x|] eqn:E; [|reflexivity]; exfalso; apply Hu, in_or_app; right; apply okeys_In; eauto).
      unfold ogetN at 2. rewrite E1, E2. cbn [dflt]. rewrite oget_empty. reflexivity.
  - apply (Y (ogetN (f_eff f) u)). unfold claimable_side, get_dist, user_dists.
    assert (E1 : oget (r_global r) a = None) by (destruct (oget (r_global r) a) as [x|] eqn:E; [|reflexivity]; exfalso; apply Ha, in_or_app; left; apply okeys_In; eauto).
    unfold ogetN at 1. rewrite E1. cbn [dflt]. f_equal. destruct (oget (r_dists r) u) as [l|] eqn:E; cbn [dflt]; [|apply oget_empty].
    destruct (oget l a) as [x|] eqn:El; [|reflexivity]. exfalso. apply Ha, in_or_app. right. apply in_flat_map. exists l. split.
    + unfold ovals. apply in_map_iff. exists (u, l). split; [reflexivity|apply oget_In; exact E].
    + apply okeys_In. eauto.
Qed.
Lemma rewards_fit_check {X} (w : world X) : fitb (w_funds w) (f_native (w_funds w)) && fitb (w_funds w) (f_cw20 (w_funds w)) = true -> rewards_fit w.
Proof.
  intros H u a. apply andb_prop in H. destruct H as (H1 & H2). destruct a as [d|c|c i]; cbn [claimable]; [apply fit_check; exact H1|apply fit_check; exact H2|eauto].
Qed.

(** * The chain of the examples *)

Lemma chain_free : free_calls chain.
Proof. intros [b c n] s to. eexists. reflexivity. Qed.

Lemma chain_good u h : u < 10 -> (forall t, keeper h = Some t -> is_dao dao_at t = false) -> good_ledger chain dao_at u h (has u h).
Proof.
  intros Hu Hk. split; [exact (chain_honest u h Hu)| |exact Hk]. intros w e to n Hn Hb. destruct h as [[d|t|t i]|c k]; cbn [hand_over has] in *.
  - cbn [x_msg chain]. unfold pay_coins. cbn [fold_res fst snd]. unfold moved. replace (bk_bank (w_ext w) d u <? n) with false by lia. cbn [bind]. eauto.
  - cbn [x_exec chain]. unfold moved. replace (bk_cw20 (w_ext w) t u <? n) with false by lia. cbn [bind]. eauto.
  - lia.
  - cbn [x_exec chain]. destruct (bk_nft (w_ext w) c k =? u); [|lia]. cbn [orb guard bind]. eauto.
Qed.

(** 11, who has 180 of the staked 270 tokens, unstakes all of them. *)
Lemma unstake_case :
  let w := world_run chain dao_at (ledger_dao false) token_story in
  new_dao dao_at (ledger_dao false) /\ funds_instantiate 3 1 None [] = Ok (w_funds (ledger_dao false)) /\ weights_covered (ledger_dao false) 11 /\
  timely 0 token_story /\ lasting w /\ calm dao_at w /\ undisturbed dao_at w /\ free_calls chain /\ rewards_fit w /\ fungible (w_member w) token_end /\
  weight_of (w_member w) 11 = 180 /\ unlockable (clock 2090) (st_period token_end) (st_next_claim token_end) /\
  last_time token_story <= e_time (clock 2090) /\
  match world_tx chain dao_at w (mk_tx 7 (clock 2090) 11 (to_membership dao_at (unstaking (w_member w) 180))) with
  | Ok w' => weight_of (w_member w') 11 = 0 /\ reward_weight w' 11 = 0
  | Err _ => False
  end.
Proof.
  intros w. split; [exact (ledger_new false)|]. split; [vm_compute; reflexivity|]. split; [apply N.leb_le; vm_compute; reflexivity|].
  split; [apply timely_check; vm_compute; reflexivity|]. split; [split; vm_compute; reflexivity|]. split; [apply calm_check; vm_compute; reflexivity|].
  split; [apply undisturbed_check; vm_compute; reflexivity|]. split; [exact chain_free|]. split; [apply rewards_fit_check; vm_compute; reflexivity|].
  split; [left; vm_compute; reflexivity|]. split; [vm_compute; reflexivity|]. split; [split; [vm_compute; reflexivity|]|].
  - replace (st_period token_end) with (DTime 2000) by (vm_compute; reflexivity). vm_compute. reflexivity.
  - split; [apply N.leb_le; vm_compute; reflexivity|]. vm_compute. auto.
Qed.

(** Later 11 claims the 120 tokens they had unstaked before. *)
Lemma claim_case :
  let w := world_run chain dao_at (ledger_dao false) token_story in
  fungible (w_member w) token_end /\ good_ledger chain dao_at (a_membership dao_at) (HAmount (st_asset token_end)) (has 7 (HAmount (Cw20 90))) /\
  foreign dao_at (HAmount (st_asset token_end)) token_story /\ has 7 (HAmount (Cw20 90)) (w_ext w) < 2 ^ 128 /\
  due_amount (clock 2095) 11 token_end = 120 /\
  match world_tx chain dao_at w (mk_tx 4 (clock 2095) 11 (to_membership dao_at (claiming (w_member w)))) with
  | Ok w' => bk_cw20 (w_ext w') 90 11 = bk_cw20 (w_ext w) 90 11 + 120
  | Err _ => False
  end.
Proof.
  intros w. split; [left; vm_compute; reflexivity|].
  split; [replace (HAmount (st_asset token_end)) with (HAmount (Cw20 90)) by (vm_compute; reflexivity);
    apply chain_good; [reflexivity|]; intros t Ht; injection Ht as <-; vm_compute; reflexivity|].
  split; [apply foreign_check with 90; vm_compute; reflexivity|]. split; [vm_compute; reflexivity|]. split; vm_compute; reflexivity.
Qed.

(** 11 unstakes NFT 3; 12 claims NFT 5. *)
Lemma nft_case :
  let w := world_run chain dao_at (ledger_dao true) nft_story in
  new_dao dao_at (ledger_dao true) /\ funds_instantiate 3 1 None [] = Ok (w_funds (ledger_dao true)) /\ weights_covered (ledger_dao true) 11 /\
  timely 0 nft_story /\ lasting w /\ calm dao_at w /\ undisturbed dao_at w /\ rewards_fit w /\ w_member w = MNft nft_end /\ ns_contract nft_end = NCw721 91 /\
  oget (ns_stakes nft_end) 3 = Some 11 /\ unlockable (clock 2090) (ns_period nft_end) (ns_next_claim nft_end) /\
  due_nfts (clock 2090) 12 nft_end = [5] /\ good_ledger chain dao_at (a_membership dao_at) (HNft 91 5) (has 7 (HNft 91 5)) /\
  foreign dao_at (HNft 91 0) nft_story /\
  is_ok (world_tx chain dao_at w (mk_tx 7 (clock 2090) 11 (to_membership dao_at (NftMsg (NUnstake [3]))))) = true /\
  match world_tx chain dao_at w (mk_tx 4 (clock 2090) 12 (to_membership dao_at (claiming (w_member w)))) with
  | Ok w' => bk_nft (w_ext w) 91 5 = 7 /\ bk_nft (w_ext w') 91 5 = 12
  | Err _ => False
  end.
Proof.
  intros w. split; [exact (ledger_new true)|]. split; [vm_compute; reflexivity|]. split; [apply N.leb_le; vm_compute; reflexivity|].
  split; [apply timely_check; vm_compute; reflexivity|]. split; [split; vm_compute; reflexivity|]. split; [apply calm_check; vm_compute; reflexivity|].
  split; [apply undisturbed_check; vm_compute; reflexivity|]. split; [apply rewards_fit_check; vm_compute; reflexivity|].
  split; [vm_compute; reflexivity|]. split; [vm_compute; reflexivity|]. split; [vm_compute; reflexivity|]. split; [split; [vm_compute; reflexivity|]|].
  - replace (ns_period nft_end) with (DTime 2000) by (vm_compute; reflexivity). vm_compute. reflexivity.
  - split; [vm_compute; reflexivity|]. split; [apply chain_good; [reflexivity|]; intros t Ht; injection Ht as <-; vm_compute; reflexivity|].
    split; [apply foreign_check with 91; vm_compute; reflexivity|]. split; vm_compute; auto.
Qed.

(** 12 asks for the rewards in both assets, one of them twice, and gets 7 coins and 12 tokens. *)
Lemma reward_claim_case :
  let w := world_run chain dao_at (ledger_dao false) token_story in
  (forall a, In a [Native 70; Native 70; Cw20 90] ->
     good_ledger chain dao_at (a_funds dao_at) (HAmount a) (has 6 (HAmount a)) /\ foreign dao_at (HAmount a) token_story /\ has 6 (HAmount a) (w_ext w) < 2 ^ 128) /\
  unrestricted chain w 12 /\
  match world_tx chain dao_at w (mk_tx 6 (clock 2090) 12 (to_distributor dao_at (FClaim 12 [70; 70] [90]))) with
  | Ok w' => firstn 3 (w_log w') = [(6, hand_over (HAmount (Cw20 90)) 12 12); (6, hand_over (HAmount (Native 70)) 12 7);
                                    (12, to_distributor dao_at (FClaim 12 [70; 70] [90]))]
  | Err _ => False
  end.
Proof.
  intros w. split; [|split; vm_compute; [exact I|reflexivity]]. intros a Ha. split; [apply chain_good; [reflexivity|]|split].
  - cbn [In] in Ha. destruct Ha as [<-|[<-|[<-|[]]]]; intros t Ht; [discriminate..|]. injection Ht as <-. vm_compute. reflexivity.
  - cbn [In] in Ha. destruct Ha as [<-|[<-|[<-|[]]]]; [intros t Ht; discriminate..|]. apply foreign_check with 90; vm_compute; reflexivity.
  - cbn [In] in Ha. destruct Ha as [<-|[<-|[<-|[]]]]; vm_compute; reflexivity.
Qed.

(** * A member who cannot leave *)

(** The treasury's whitelist has token 95, which reports amounts that nobody sent. *)
Definition trusting_dao : world book :=
  let w := ledger_dao false in
  mk_world (w_enterprise w) (w_ctl w) (w_gov w) (w_member w) (w_council w) (w_funds w)
    (got (treasury_instantiate 3 (Some [Cw20 95]) None) tr_new) (w_outposts w) [] false
    (mk_book (fun _ _ => 0) (fun t u => if (t =? 90) && (u =? 11) then 2 * 10 ^ 18 else 0) (fun _ _ => 0)).
Definition lied : list tx :=
  [send_token 60 11 7 (2 * 10 ^ 18) (HookMember (HStake 11)); to_funds 70 95 [] (FReceive (2 ^ 128 - 1) true); to_funds 70 95 [] (FReceive (2 ^ 128 - 1) true)].

(** All conditions but the one that rewards fit: 11 can neither unstake nor claim the reward that is in the way. *)
Lemma locked_in : exists (A : addrs) (w0 : world book) ts u st e,
  new_dao A w0 /\ funds_instantiate (a_controller A) (a_enterprise A) None [] = Ok (w_funds w0) /\ weights_covered w0 u /\
  let w := world_run chain A w0 ts in
  timely 0 ts /\ lasting w /\ calm A w /\ undisturbed A w /\ free_calls chain /\ fungible (w_member w) st /\
  0 < weight_of (w_member w) u /\ unlockable e (st_period st) (st_next_claim st) /\ last_time ts <= e_time e /\ is_dao A u = false /\ u <> 0 /\
  (forall gas, is_ok (world_tx chain A w (mk_tx gas e u (to_membership A (unstaking (w_member w) 1)))) = false) /\
  (forall gas, is_ok (world_tx chain A w (mk_tx gas e u (to_distributor A (FClaim u [] [95])))) = false).
Proof.
  exists dao_at, trusting_dao, lied, 11, (match w_member (world_run chain dao_at trusting_dao lied) with MToken s => s | _ => token_end end), (clock 90).
  split; [destruct (ledger_new false); split; assumption|]. split; [vm_compute; reflexivity|]. split; [apply N.leb_le; vm_compute; reflexivity|].
  intros w. split; [apply timely_check; vm_compute; reflexivity|]. split; [split; vm_compute; reflexivity|].
  split; [apply calm_check; vm_compute; reflexivity|]. split; [apply undisturbed_check; vm_compute; reflexivity|]. split; [exact chain_free|].
  split; [left; vm_compute; reflexivity|]. split; [vm_compute; reflexivity|]. split; [split; [vm_compute; reflexivity|]|].
  - match goal with |- release_exists _ ?p => replace p with (DTime 2000) by (vm_compute; reflexivity) end. vm_compute. reflexivity.
  - split; [apply N.leb_le; vm_compute; reflexivity|]. split; [vm_compute; reflexivity|]. split; [discriminate|].
    split; intros gas; do 12 (destruct gas as [|gas]; [vm_compute; reflexivity|]); vm_compute; reflexivity.
Qed.

(** 61 stakes 30 tokens in a DAO just created and unstakes 20 of them. *)
Definition fresh_start : world unit := dflt (dao true) fresh_token.
Definition first_stake : list tx := [mk_tx 60 (clock 60) 1006 (WasmExecute 1007 (ToMembership (TokenMsg (TReceive 30 (HStake 61)))) [])].
Lemma created_case :
  let A := addrs_of made_token in
  fresh_token = Some fresh_start /\
  exists st, let w := world_run idle A fresh_start first_stake in
    timely 0 first_stake /\ lasting w /\ calm A w /\ undisturbed A w /\ free_calls idle /\ rewards_fit w /\ fungible (w_member w) st /\ weight_of (w_member w) 61 = 30 /\
    match world_tx idle A w (mk_tx 7 (clock 70) 61 (to_membership A (unstaking (w_member w) 20))) with
    | Ok w' => weight_of (w_member w') 61 = 10
    | Err _ => False
    end.
Proof.
  split; [assert (H : is_some fresh_token = true) by (vm_compute; reflexivity); unfold fresh_start; destruct fresh_token; [reflexivity|discriminate]|].
  exists (match w_member (world_run idle (addrs_of made_token) fresh_start first_stake) with MToken s => s | _ => token_end end). intros w.
  split; [apply timely_check; vm_compute; reflexivity|]. split; [split; vm_compute; reflexivity|].
  split; [apply calm_check; vm_compute; reflexivity|]. split; [apply undisturbed_check; vm_compute; reflexivity|].
  split; [intros x s to; exists tt; reflexivity|]. split; [apply rewards_fit_check; vm_compute; reflexivity|].
  split; [left; vm_compute; reflexivity|]. split; vm_compute; reflexivity.
Qed.
