(** What it means that members can always leave, and take along what is theirs. *)
From Verif Require Import Base OMap Assets PollModel FundsModel FundsSpec MemberModel MemberSpec Msgs ControllerModel EnterpriseModel WorldModel WorldSpec
  RewardSpec LedgerSpec.

(** A call that carries no coins is not refused for the coins it carries. *)
Definition free_calls {X} (Out : outside X) : Prop := forall x s to, exists x', x_pay Out x s to [] = Ok x'.

(** Every reward fits the amount type, for every user and asset: the query of rewards answers. *)
Definition rewards_fit {X} (w : world X) : Prop := forall u a, exists n, claimable (w_funds w) u a = Ok n.

(** Nobody starts with more votes than reward weight. *)
Definition weights_covered {X} (w : world X) (u : addr) : Prop := weight_of (w_member w) u <= reward_weight w u.

(** There is a next claim number and the unlocking period ends at a point in time that exists. *)
Definition unlockable (e : env) (period : duration) (next : N) : Prop := next + 1 < 2 ^ 64 /\ release_exists e period.

(** Of the DAO only the books of the contracts that hear of a weight have changed, apart from the membership contract. *)
Definition rest_same {X} (w w' : world X) : Prop :=
  w_enterprise w' = w_enterprise w /\ w_ctl w' = w_ctl w /\ w_council w' = w_council w /\ w_treasury w' = w_treasury w /\
  w_outposts w' = w_outposts w /\ w_upgraded w' = w_upgraded w.

(** The message by which one hands [n] of [h] to [to]. *)
Definition hand_over (h : holding) (to n : N) : cosmos_msg :=
  match h with
  | HAmount (Native d) => BankSend to [(d, n)]
  | HAmount (Cw20 t) => WasmExecute t (ToCw20 (Cw20Transfer to n)) []
  | HAmount (Cw1155 t i) => WasmExecute t (ToCw1155 (Cw1155Send 0 to i n)) []
  | HNft c k => WasmExecute c (ToCw721 (Cw721Transfer to k)) []
  end.

(** The ledger of [h] lets [u] hand away what it has ([bal]) of it, without calling anybody. *)
Definition pays_out {X} (Out : outside X) (u : addr) (h : holding) (bal : X -> N) : Prop :=
  forall w e to n, 0 < n -> n <= bal (w_ext w) ->
    match hand_over h to n with
    | WasmExecute t m coins => exists x y, x_exec Out w e u t m coins = Ok (x, [], y)
    | m => exists x y, x_msg Out w e u m = Ok (x, y)
    end.

(** An honest ledger outside the DAO that does so. *)
Record good_ledger {X} (Out : outside X) (A : addrs) (u : addr) (h : holding) (bal : X -> N) : Prop := mk_good {
  gl_honest : honest_ledger Out u h bal;
  gl_pays : pays_out Out u h bal;
  gl_outside : forall t, keeper h = Some t -> is_dao A t = false
}.

(** The messages by which a member of a staking DAO unstakes and claims. *)
Definition unstaking (st : member_state) (amount : N) : member_msg :=
  match st with MToken _ => TokenMsg (TCommon (SUnstake amount)) | _ => DenomMsg (DCommon (SUnstake amount)) end.
Definition claiming (st : member_state) : member_msg :=
  match st with MToken _ => TokenMsg (TCommon (SClaim None)) | MNft _ => NftMsg (NClaim None) | _ => DenomMsg (DCommon (SClaim None)) end.
Definition to_membership (A : addrs) (m : member_msg) : cosmos_msg := WasmExecute (a_membership A) (ToMembership m) [].

(** The NFTs of [u]'s claims that are due. *)
Definition due_nfts (e : env) (u : addr) (s : nft_staking) : list N := flat_map nc_tokens (filter (nft_due e u) (ovals (ns_claims s))).

(** [u] is not kept out by the DAO's attestation. *)
Definition unrestricted {X} (Out : outside X) (w : world X) (u : addr) : Prop :=
  match en_components (w_enterprise w) with
  | Some c => match c_attestation c with None => True | Some a => forall x, x_signed Out x a u = Ok true end
  | None => False
  end.
Definition to_distributor (A : addrs) (m : funds_msg) : cosmos_msg := WasmExecute (a_funds A) (ToFunds m) [].
