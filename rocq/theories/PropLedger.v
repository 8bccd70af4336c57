(** What the DAO's contracts hold covers what they owe: C66-C68, C79. [bal] is what the contract has according to an outside
    that keeps an honest ledger ([honest_ledger]); everything else outside is arbitrary. *)
From Verif Require Import Base OMap OMapLemmas Assets PollModel PollSpec FundsModel FundsSpec MemberModel MemberSpec Msgs ControllerModel
  ControllerSpec TreasuryModel EnterpriseModel OutpostsModel WorldModel WorldSpec TreasuryExamples WorldExamples LedgerSpec LedgerFacts
  LedgerDeposits LedgerExamples LedgerCases.

(** C66: the membership contract has at least all stakes and all claims together. *)
Theorem C66_stakes_held : forall (X : Type) (Out : outside X) (A : addrs) bal ts (w : world X) s,
  new_dao A w -> honest_ledger Out (a_membership A) (HAmount (st_asset s)) bal -> foreign A (HAmount (st_asset s)) ts ->
  fungible (w_member (world_run Out A w ts)) s ->
  all_stakes s + all_claims s <= bal (w_ext (world_run Out A w ts)).
Proof. exact stakes_held. Qed.
Print Assumptions C66_stakes_held.

Example C66_nonvacuous :
  exists s, new_dao dao_at (ledger_dao false) /\ honest_ledger chain (a_membership dao_at) (HAmount (st_asset s)) (has 7 (HAmount (Cw20 90))) /\
    foreign dao_at (HAmount (st_asset s)) token_story /\ fungible (w_member (world_run chain dao_at (ledger_dao false) token_story)) s /\
    all_stakes s = 270 /\ all_claims s = 120 /\ has 7 (HAmount (Cw20 90)) (w_ext (world_run chain dao_at (ledger_dao false) token_story)) = 390.
Proof. exact stakes_case. Qed.

(** C67: the membership contract has every NFT at least as often as it is staked or claimed, *)
Theorem C67_nfts_held : forall (X : Type) (Out : outside X) (A : addrs) bal ts (w : world X) s col t,
  new_dao A w -> honest_ledger Out (a_membership A) (HNft col t) bal -> foreign A (HNft col t) ts ->
  w_member (world_run Out A w ts) = MNft s -> ns_contract s = NCw721 col ->
  booked s t <= bal (w_ext (world_run Out A w ts)).
Proof. exact nfts_held. Qed.
Print Assumptions C67_nfts_held.

(** ... so that a staked NFT is its own and in no claim, and a claimed one is its own, not staked and in one claim. *)
Theorem C67_nfts_unique : forall (X : Type) (Out : outside X) (A : addrs) bal ts (w : world X) s col t,
  new_dao A w -> honest_ledger Out (a_membership A) (HNft col t) bal -> (forall x, bal x <= 1) -> foreign A (HNft col t) ts ->
  w_member (world_run Out A w ts) = MNft s -> ns_contract s = NCw721 col ->
  (forall u, oget (ns_stakes s) t = Some u ->
     bal (w_ext (world_run Out A w ts)) = 1 /\ forall k c, oget (ns_claims s) k = Some c -> ~ In t (nc_tokens c)) /\
  (forall k c, oget (ns_claims s) k = Some c -> In t (nc_tokens c) ->
     bal (w_ext (world_run Out A w ts)) = 1 /\ oget (ns_stakes s) t = None /\ count t (nc_tokens c) = 1 /\
     forall k' c', k' <> k -> oget (ns_claims s) k' = Some c' -> ~ In t (nc_tokens c')).
Proof. exact nfts_unique. Qed.
Print Assumptions C67_nfts_unique.

Example C67_nonvacuous : forall t, t = 3 \/ t = 5 ->
  exists s, new_dao dao_at (ledger_dao true) /\ honest_ledger chain (a_membership dao_at) (HNft 91 t) (has 7 (HNft 91 t)) /\
    (forall x, has 7 (HNft 91 t) x <= 1) /\ foreign dao_at (HNft 91 t) nft_story /\
    w_member (world_run chain dao_at (ledger_dao true) nft_story) = MNft s /\ ns_contract s = NCw721 91 /\
    oget (ns_stakes s) 3 = Some 11 /\ map (fun c => (nc_user c, nc_tokens c)) (ovals (ns_claims s)) = [(12, [5])] /\
    booked s t = 1 /\ has 7 (HNft 91 t) (w_ext (world_run chain dao_at (ledger_dao true) nft_story)) = 1.
Proof. exact nfts_case. Qed.

(** C68: the funds distributor has at least what any users can claim together. *)
Theorem C68_rewards_held : forall (X : Type) (Out : outside X) (A : addrs) bal ts (w : world X) a ad en mn ini us xs,
  NoDup (dao_addrs A) -> funds_instantiate ad en mn ini = Ok (w_funds w) ->
  honest_ledger Out (a_funds A) (HAmount a) bal -> foreign A (HAmount a) ts -> NoDup us ->
  map_res (fun u => claimable (w_funds (world_run Out A w ts)) u a) us = Ok xs ->
  lsum (fun x => x) xs <= bal (w_ext (world_run Out A w ts)).
Proof. exact rewards_held. Qed.
Print Assumptions C68_rewards_held.

Example C68_nonvacuous :
  NoDup (dao_addrs dao_at) /\ (exists ad en mn ini, funds_instantiate ad en mn ini = Ok (w_funds (ledger_dao false))) /\
  (forall a, honest_ledger chain (a_funds dao_at) (HAmount a) (has 6 (HAmount a))) /\
  foreign dao_at (HAmount (Cw20 90)) token_story /\ foreign dao_at (HAmount (Native 70)) token_story /\ NoDup [11; 12] /\
  map_res (fun u => claimable (w_funds (world_run chain dao_at (ledger_dao false) token_story)) u (Cw20 90)) [11; 12] = Ok [37; 12] /\
  has 6 (HAmount (Cw20 90)) (w_ext (world_run chain dao_at (ledger_dao false) token_story)) = 50 /\
  map_res (fun u => claimable (w_funds (world_run chain dao_at (ledger_dao false) token_story)) u (Native 70)) [11; 12] = Ok [0; 7] /\
  has 6 (HAmount (Native 70)) (w_ext (world_run chain dao_at (ledger_dao false) token_story)) = 8.
Proof. exact rewards_case. Qed.

(** C79: the controller has at least the deposits of all proposals not yet resolved: coins and tokens, *)
Theorem C79_deposits_held : forall (X : Type) (Out : outside X) A a bal w0 ts w,
  new_dao A w0 -> w = world_run Out A w0 ts -> lasting w -> thrifty A w ->
  honest_to (plain_payment (a_controller A)) Out (a_controller A) (HAmount a) bal -> foreign A (HAmount a) ts ->
  open_deposits (HAmount a) (w_ctl w) <= bal (w_ext w).
Proof. exact deposits_held. Qed.
Print Assumptions C79_deposits_held.

Example C79_nonvacuous :
  new_dao dao_at (ledger_dao false) /\ lasting (world_run chain dao_at (ledger_dao false) token_deposits) /\
  thrifty dao_at (world_run chain dao_at (ledger_dao false) token_deposits) /\
  honest_to (plain_payment 3) chain 3 (HAmount (Cw20 90)) (has 3 (HAmount (Cw20 90))) /\ foreign dao_at (HAmount (Cw20 90)) token_deposits /\
  open_deposits (HAmount (Cw20 90)) (w_ctl (world_run chain dao_at (ledger_dao false) token_deposits)) = 40 /\
  has 3 (HAmount (Cw20 90)) (w_ext (world_run chain dao_at (ledger_dao false) token_deposits)) = 40 /\
  executions dao_at (world_run chain dao_at (ledger_dao false) token_deposits) 1 = 1.
Proof. exact deposits_case. Qed.

(** ... and NFTs, none of which is deposited twice. *)
Theorem C79_nft_deposits_held : forall (X : Type) (Out : outside X) A c k bal w0 ts w,
  new_dao A w0 -> w = world_run Out A w0 ts -> lasting w -> thrifty A w -> no_self_deposits A w ->
  honest_to (plain_payment (a_controller A)) Out (a_controller A) (HNft c k) bal ->
  honest_collection Out (a_controller A) c k bal -> foreign A (HNft c k) ts ->
  open_deposits (HNft c k) (w_ctl w) <= bal (w_ext w) /\ bal (w_ext w) <= 1.
Proof. exact nft_deposits_held. Qed.
Print Assumptions C79_nft_deposits_held.

Example C79_nft_nonvacuous :
  new_dao dao_at (ledger_dao true) /\ lasting (world_run chain dao_at (ledger_dao true) nft_deposits) /\
  thrifty dao_at (world_run chain dao_at (ledger_dao true) nft_deposits) /\ no_self_deposits dao_at (world_run chain dao_at (ledger_dao true) nft_deposits) /\
  (forall k, honest_to (plain_payment 3) chain 3 (HNft 91 k) (has 3 (HNft 91 k)) /\ honest_collection chain 3 91 k (has 3 (HNft 91 k)) /\ foreign dao_at (HNft 91 k) nft_deposits) /\
  map (fun k => open_deposits (HNft 91 k) (w_ctl (world_run chain dao_at (ledger_dao true) nft_deposits))) [2; 3; 5] = [0; 0; 1] /\
  map (fun k => bk_nft (w_ext (world_run chain dao_at (ledger_dao true) nft_deposits)) 91 k) [2; 3; 5] = [11; 11; 3].
Proof. exact nft_deposits_case. Qed.

(** Custom messages of a proposal that passed can spoil both: they can deposit again an NFT that is deposited already, *)
Theorem C79_without_no_self_deposits_refuted :
  exists (Out : outside book) A c k bal w0 ts w,
    new_dao A w0 /\ w = world_run Out A w0 ts /\ lasting w /\ thrifty A w /\
    honest_to (plain_payment (a_controller A)) Out (a_controller A) (HNft c k) bal /\ honest_collection Out (a_controller A) c k bal /\ foreign A (HNft c k) ts /\
    open_deposits (HNft c k) (w_ctl w) = 2 /\ bal (w_ext w) = 1.
Proof. exact redeposit_case. Qed.
Print Assumptions C79_without_no_self_deposits_refuted.

(** ... or send deposits away. *)
Theorem C79_without_thrifty_refuted :
  exists (Out : outside book) A a bal w0 ts w,
    new_dao A w0 /\ w = world_run Out A w0 ts /\ lasting w /\
    honest_to (plain_payment (a_controller A)) Out (a_controller A) (HAmount a) bal /\ foreign A (HAmount a) ts /\
    open_deposits (HAmount a) (w_ctl w) = 100 /\ bal (w_ext w) = 0.
Proof. exact token_raid_case. Qed.
Print Assumptions C79_without_thrifty_refuted.
