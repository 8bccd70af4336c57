(** What it means that anybody can join, independently of how the model computes. *)
From Verif Require Import Base OMap Assets PollModel FundsModel FundsSpec MemberModel MemberSpec Msgs ControllerModel TreasuryModel EnterpriseModel OutpostsModel
  WorldModel WorldSpec RewardSpec ExitSpec.

(** The calls that stake. *)
Definition stakes_by (mm : member_msg) : bool :=
  match mm with DenomMsg (DStake _) | TokenMsg (TReceive _ (HStake _)) | NftMsg (NReceive _ (NStake _)) => true | _ => false end.

(** The collection of NFTs that can be staked; [found] tells where the bridge has put those of a class of another chain. *)
Definition collection_of (found : addr -> N -> res (option addr)) (c : nft_contract) (a : addr) : Prop :=
  match c with NCw721 b => a = b | NIcs721 p class => found p class = Ok (Some a) end.

(** The call of [s] with [coins] stakes [n] for [u]: exactly one coin, of the DAO's denom; or the DAO's token contract
    reports [n] tokens; or the DAO's collection reports an NFT that is not staked yet. *)
Inductive staking_call (found : addr -> N -> res (option addr)) : member_state -> addr -> list coin -> member_msg -> addr -> N -> Prop :=
| J_denom st d n s user : st_asset st = Native d ->
    staking_call found (MDenom st) s [(d, n)] (DenomMsg (DStake user)) (match user with Some v => v | None => s end) n
| J_token st t n u coins : st_asset st = Cw20 t -> staking_call found (MToken st) t coins (TokenMsg (TReceive n (HStake u))) u n
| J_nft st c k u coins : collection_of found (ns_contract st) c -> oget (ns_stakes st) k = None ->
    staking_call found (MNft st) c coins (NftMsg (NReceive k (NStake u))) u 1.

(** What has then changed in the membership contract: nothing but the weight of [u], the total, and whose NFT it is
    (and that the collection is the caller [s], if this was unknown). *)
Record joined (s : addr) (mm : member_msg) (u n : N) (st st' : member_state) : Prop := mk_joined {
  jo_weights : forall v, weight_of st' v = if v =? u then weight_of st u + n else weight_of st v;
  jo_total : total_now st' = total_now st + n;
  jo_wiring : m_enterprise (members_of st') = m_enterprise (members_of st) /\ m_hooks (members_of st') = m_hooks (members_of st);
  jo_rest : match st, st', mm with
            | MDenom q, MDenom q', _ | MToken q, MToken q', _ =>
                st_asset q' = st_asset q /\ st_period q' = st_period q /\ st_next_claim q' = st_next_claim q /\ st_claims q' = st_claims q
            | MNft q, MNft q', NftMsg (NReceive k _) =>
                (forall j, oget (ns_stakes q') j = if j =? k then Some u else oget (ns_stakes q) j) /\ ns_contract q' = NCw721 s /\
                ns_period q' = ns_period q /\ ns_next_claim q' = ns_next_claim q /\ ns_claims q' = ns_claims q
            | _, _, _ => False
            end
}.

(** All reward weights at the start. *)
Definition initial_weights {X} (w0 : world X) : N := lsum snd (elems (f_weights (w_funds w0))).

(** Payment for the call is accepted, and leaves the world outside as [x]. *)
Definition paid_in {X} (Out : outside X) (A : addrs) (w : world X) (s : addr) (coins : list coin) (x : X) : Prop :=
  x_pay Out (w_ext w) s (a_membership A) coins = Ok x.

(** The call may be made: paid for, in order, for somebody who is not restricted, and the weights still fit. *)
Definition may_join {X} (Out : outside X) (A : addrs) (w : world X) (s : addr) (coins : list coin) (mm : member_msg) (u n : N) : Prop :=
  exists x, paid_in Out A w s coins x /\ staking_call (x_ics721 Out x) (w_member w) s coins mm u n /\ u <> 0 /\
    restricted_by Out A (set_ext w x) (a_enterprise A) u = Ok false /\ total_now (w_member w) + n < 2 ^ 128.

(** What has changed: [u] has [n] more votes and reward weight; what anybody voted for, and all rewards, are as before. *)
Record joined_dao {X} (s : addr) (mm : member_msg) (u n : N) (w w' : world X) : Prop := mk_joined_dao {
  jd_member : joined s mm u n (w_member w) (w_member w');
  jd_rest : rest_same w w';
  jd_weights : forall v, reward_weight w' v = if v =? u then weight_of (w_member w) u + n else reward_weight w v;
  jd_rewards : forall v a, claimable (w_funds w') v a = claimable (w_funds w) v a;
  jd_votes : forall v id, option_map v_outcome (get_vote (w_gov w') v id) = option_map v_outcome (get_vote (w_gov w) v id);
  jd_others : forall v id, v <> u -> get_vote (w_gov w') v id = get_vote (w_gov w) v id
}.
