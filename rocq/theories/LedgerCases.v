(** Cases of the facts about what the DAO's contracts hold. *)
From Verif Require Import Base OMap OMapLemmas Assets PollModel PollSpec FundsModel FundsSpec MemberModel MemberSpec Msgs ControllerModel
  ControllerSpec TreasuryModel EnterpriseModel OutpostsModel WorldModel WorldSpec TreasuryExamples WorldExamples LedgerSpec LedgerExamples.

Lemma foreign_check h ts (t : addr) : keeper h = Some t -> is_dao dao_at t = false -> forallb (fun x => negb (tx_signer x =? t)) ts = true -> foreign dao_at h ts.
Proof.
  intros Hk Hd H t' Ht. rewrite Hk in Ht. injection Ht as <-. split; [exact Hd|]. intros x Hx E. rewrite forallb_forall in H. specialize (H x Hx).
  rewrite E, N.eqb_refl in H. discriminate.
Qed.

Definition token_end : staking := match w_member (world_run chain dao_at (ledger_dao false) token_story) with MToken s => s | _ =>
  mk_staking no_members (Native 0) (DTime 0) 0 oempty end.
Definition nft_end : nft_staking := match w_member (world_run chain dao_at (ledger_dao true) nft_story) with MNft s => s | _ =>
  mk_nft_staking no_members (NCw721 0) (DTime 0) oempty 0 oempty end.

(** 270 staked, 120 claimed, 390 there. *)
Lemma stakes_case :
  exists s, new_dao dao_at (ledger_dao false) /\ honest_ledger chain (a_membership dao_at) (HAmount (st_asset s)) (has 7 (HAmount (Cw20 90))) /\
    foreign dao_at (HAmount (st_asset s)) token_story /\ fungible (w_member (world_run chain dao_at (ledger_dao false) token_story)) s /\
    all_stakes s = 270 /\ all_claims s = 120 /\ has 7 (HAmount (Cw20 90)) (w_ext (world_run chain dao_at (ledger_dao false) token_story)) = 390.
Proof.
  exists token_end. split; [exact (ledger_new false)|].
  split; [exact (chain_honest 7 (HAmount (Cw20 90)) eq_refl)|]. split; [apply foreign_check with 90; vm_compute; reflexivity|].
  split; [|vm_compute; auto]. left. vm_compute. reflexivity.
Qed.

(** 11 has NFT 3 staked, 12 has a claim on NFT 5; the contract owns both. *)
Lemma nfts_case : forall t, t = 3 \/ t = 5 ->
  exists s, new_dao dao_at (ledger_dao true) /\ honest_ledger chain (a_membership dao_at) (HNft 91 t) (has 7 (HNft 91 t)) /\
    (forall x, has 7 (HNft 91 t) x <= 1) /\ foreign dao_at (HNft 91 t) nft_story /\
    w_member (world_run chain dao_at (ledger_dao true) nft_story) = MNft s /\ ns_contract s = NCw721 91 /\
    oget (ns_stakes s) 3 = Some 11 /\ map (fun c => (nc_user c, nc_tokens c)) (ovals (ns_claims s)) = [(12, [5])] /\
    booked s t = 1 /\ has 7 (HNft 91 t) (w_ext (world_run chain dao_at (ledger_dao true) nft_story)) = 1.
Proof.
  intros t Ht. exists nft_end. split; [exact (ledger_new true)|]. split; [exact (chain_honest 7 (HNft 91 t) eq_refl)|].
  split; [intros x; cbn; destruct (_ =? _); lia|].
  split; [apply foreign_check with 91; vm_compute; reflexivity|]. destruct Ht as [-> | ->]; vm_compute; auto 9.
Qed.

(** Of 50 tokens handed in, 37 and 12 can be claimed; of the 30 coins, 22 have been paid and 7 can be claimed. *)
Lemma rewards_case :
  NoDup (dao_addrs dao_at) /\ (exists ad en mn ini, funds_instantiate ad en mn ini = Ok (w_funds (ledger_dao false))) /\
  (forall a, honest_ledger chain (a_funds dao_at) (HAmount a) (has 6 (HAmount a))) /\
  foreign dao_at (HAmount (Cw20 90)) token_story /\ foreign dao_at (HAmount (Native 70)) token_story /\ NoDup [11; 12] /\
  map_res (fun u => claimable (w_funds (world_run chain dao_at (ledger_dao false) token_story)) u (Cw20 90)) [11; 12] = Ok [37; 12] /\
  has 6 (HAmount (Cw20 90)) (w_ext (world_run chain dao_at (ledger_dao false) token_story)) = 50 /\
  map_res (fun u => claimable (w_funds (world_run chain dao_at (ledger_dao false) token_story)) u (Native 70)) [11; 12] = Ok [0; 7] /\
  has 6 (HAmount (Native 70)) (w_ext (world_run chain dao_at (ledger_dao false) token_story)) = 8.
Proof.
  split; [exact (nd_addrs _ _ (ledger_new false))|]. split; [exists 3, 1, None, []; vm_compute; reflexivity|].
  split; [intros a; exact (chain_honest 6 (HAmount a) eq_refl)|]. split; [apply foreign_check with 90; vm_compute; reflexivity|].
  split; [intros t Ht; discriminate|]. split; [repeat constructor; cbn; intuition discriminate|]. vm_compute. auto.
Qed.

Ltac few_customs := intros id p m _ Hp Hm; apply oget_In in Hp;
  match goal with H : In _ (elems ?l) |- _ => let v := eval vm_compute in (elems l) in replace (elems l) with v in H by (vm_compute; reflexivity) end;
  cbn [In] in Hp; repeat (destruct Hp as [Hp|Hp]; [injection Hp as <- <-; cbn in Hm; try contradiction|]); try contradiction.

(** Of the two deposits of 100 and 40 tokens, the first went back; the controller has the other one. *)
Lemma deposits_case :
  new_dao dao_at (ledger_dao false) /\ lasting (world_run chain dao_at (ledger_dao false) token_deposits) /\
  thrifty dao_at (world_run chain dao_at (ledger_dao false) token_deposits) /\
  honest_to (plain_payment 3) chain 3 (HAmount (Cw20 90)) (has 3 (HAmount (Cw20 90))) /\ foreign dao_at (HAmount (Cw20 90)) token_deposits /\
  open_deposits (HAmount (Cw20 90)) (w_ctl (world_run chain dao_at (ledger_dao false) token_deposits)) = 40 /\
  has 3 (HAmount (Cw20 90)) (w_ext (world_run chain dao_at (ledger_dao false) token_deposits)) = 40 /\
  executions dao_at (world_run chain dao_at (ledger_dao false) token_deposits) 1 = 1.
Proof.
  split; [exact (ledger_new false)|]. split; [vm_compute; auto|]. split; [few_customs|]. split; [exact (chain_plain 3 _ eq_refl)|].
  split; [apply foreign_check with 90; vm_compute; reflexivity|]. vm_compute. auto.
Qed.

(** NFTs 2 and 3 went back to 11; the controller has NFT 5, the deposit of the other proposal. *)
Lemma nft_deposits_case :
  new_dao dao_at (ledger_dao true) /\ lasting (world_run chain dao_at (ledger_dao true) nft_deposits) /\
  thrifty dao_at (world_run chain dao_at (ledger_dao true) nft_deposits) /\ no_self_deposits dao_at (world_run chain dao_at (ledger_dao true) nft_deposits) /\
  (forall k, honest_to (plain_payment 3) chain 3 (HNft 91 k) (has 3 (HNft 91 k)) /\ honest_collection chain 3 91 k (has 3 (HNft 91 k)) /\ foreign dao_at (HNft 91 k) nft_deposits) /\
  map (fun k => open_deposits (HNft 91 k) (w_ctl (world_run chain dao_at (ledger_dao true) nft_deposits))) [2; 3; 5] = [0; 0; 1] /\
  map (fun k => bk_nft (w_ext (world_run chain dao_at (ledger_dao true) nft_deposits)) 91 k) [2; 3; 5] = [11; 11; 3].
Proof.
  split; [exact (ledger_new true)|]. split; [vm_compute; auto|]. split; [few_customs|]. split; [few_customs|]. split.
  - intros k. split; [exact (chain_plain 3 _ eq_refl)|]. split; [apply chain_collection|]. apply foreign_check with 91; vm_compute; reflexivity.
  - vm_compute. auto.
Qed.

(** The proposal that passed makes the controller propose with NFT 5, another proposal's deposit: both proposals are open
    with the same NFT as deposit. *)
Lemma redeposit_case :
  exists (Out : outside book) A c k bal w0 ts w,
    new_dao A w0 /\ w = world_run Out A w0 ts /\ lasting w /\ thrifty A w /\
    honest_to (plain_payment (a_controller A)) Out (a_controller A) (HNft c k) bal /\ honest_collection Out (a_controller A) c k bal /\ foreign A (HNft c k) ts /\
    open_deposits (HNft c k) (w_ctl w) = 2 /\ bal (w_ext w) = 1.
Proof.
  exists chain, dao_at, 91, 5, (has 3 (HNft 91 5)), (ledger_dao true), redeposit, (world_run chain dao_at (ledger_dao true) redeposit).
  split; [exact (ledger_new true)|]. split; [reflexivity|]. split; [vm_compute; auto|]. split; [few_customs|].
  - destruct Hm as [<-|[]]. reflexivity.
  - split; [exact (chain_plain 3 _ eq_refl)|]. split; [apply chain_collection|]. split; [apply foreign_check with 91; vm_compute; reflexivity|]. vm_compute. auto.
Qed.

(** The proposal that passed sends away the tokens another proposal has as deposit. *)
Lemma token_raid_case :
  exists (Out : outside book) A a bal w0 ts w,
    new_dao A w0 /\ w = world_run Out A w0 ts /\ lasting w /\
    honest_to (plain_payment (a_controller A)) Out (a_controller A) (HAmount a) bal /\ foreign A (HAmount a) ts /\
    open_deposits (HAmount a) (w_ctl w) = 100 /\ bal (w_ext w) = 0.
Proof.
  exists chain, dao_at, (Cw20 90), (has 3 (HAmount (Cw20 90))), (ledger_dao false), token_raid, (world_run chain dao_at (ledger_dao false) token_raid).
  split; [exact (ledger_new false)|]. split; [reflexivity|]. split; [vm_compute; auto|].
  split; [exact (chain_plain 3 _ eq_refl)|]. split; [apply foreign_check with 90; vm_compute; reflexivity|]. vm_compute. auto.
Qed.
