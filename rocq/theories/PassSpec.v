(** What it means that the members' accounts balance: what was handed in for somebody is what they have staked, what
    they are waiting for and what they were given back. All of it is read off the messages that were delivered. *)
From Verif Require Import Base OMap Assets FundsModel MemberModel MemberSpec Msgs ControllerModel TreasuryModel EnterpriseModel
  OutpostsModel WorldModel WorldSpec.

(** The amount that a delivered message hands in for [u] at the membership contract. *)
Definition put_in (A : addrs) (u : addr) (x : addr * cosmos_msg) : N :=
  match snd x with
  | WasmExecute to (ToMembership m) coins =>
      if to =? a_membership A then
        match m with
        | TokenMsg (TReceive n (HStake v)) => if v =? u then n else 0
        | TokenMsg (TReceive _ (HAddStakes l)) => lsum (fun p => if fst p =? u then snd p else 0) l
        | TokenMsg (TReceive _ (HAddClaims l)) => lsum (fun p => if fst (fst p) =? u then snd (fst p) else 0) l
        | DenomMsg (DStake (Some v)) => if v =? u then lsum snd coins else 0
        | DenomMsg (DStake None) => if fst x =? u then lsum snd coins else 0
        | _ => 0
        end
      else 0
  | _ => 0
  end.

(** The amount that it pays to [u], if the membership contract sent it. *)
Definition given_back (A : addrs) (u : addr) (x : addr * cosmos_msg) : N :=
  if fst x =? a_membership A then
    match snd x with
    | BankSend v coins => if v =? u then lsum snd coins else 0
    | WasmExecute _ (ToCw20 (Cw20Transfer v n)) _ => if v =? u then n else 0
    | WasmExecute _ (ToCw1155 (Cw1155Send _ v _ n)) _ => if v =? u then n else 0
    | _ => 0
    end
  else 0.

(** What [u] is waiting for. *)
Definition waiting (s : staking) (u : addr) : N :=
  lsum (fun c => if cl_user c =? u then cl_amount c else 0) (ovals (st_claims s)).

(** The same for the NFT [t]. *)
Definition nft_in (A : addrs) (t : N) (u : addr) (x : addr * cosmos_msg) : N :=
  match snd x with
  | WasmExecute to (ToMembership (NftMsg (NReceive k (NStake v | NAddClaim v _)))) _ =>
      if (to =? a_membership A) && (k =? t) && (v =? u) then 1 else 0
  | _ => 0
  end.
Definition nft_back (A : addrs) (t : N) (u : addr) (x : addr * cosmos_msg) : N :=
  match snd x with
  | WasmExecute _ (ToCw721 (Cw721Transfer v k)) _ => if (fst x =? a_membership A) && (k =? t) && (v =? u) then 1 else 0
  | _ => 0
  end.

(** * Who is sent what *)

(** A report of weight changes. *)
Definition reporting (m : cosmos_msg) : Prop := exists hook changes, m = WasmExecute hook (ToController (CWeightsChanged changes)) [].

(** A payment to [v] of what is staked in a contract with the state [st]. *)
Definition stake_payment (st : member_state) (v : addr) (m : cosmos_msg) : Prop :=
  match st with
  | MToken s => exists t n, st_asset s = Cw20 t /\ m = WasmExecute t (ToCw20 (Cw20Transfer v n)) []
  | MDenom s => exists d n, st_asset s = Native d /\ m = BankSend v [(d, n)]
  | MNft s => exists c k, ns_contract s = NCw721 c /\ m = WasmExecute c (ToCw721 (Cw721Transfer v k)) []
  | MMultisig _ => False
  end.

(** A call of the contract at [a] by which [v] claims what they unstaked. *)
Definition claims_stake (a v : addr) (x : addr * cosmos_msg) : Prop :=
  exists o m coins, x = (v, WasmExecute a (ToMembership m) coins) /\ (o = None \/ o = Some v) /\
    (m = TokenMsg (TCommon (SClaim o)) \/ m = DenomMsg (DCommon (SClaim o)) \/ m = NftMsg (NClaim o)).

(** A payment to [v] of rewards of one of the kinds that they claimed in the message [x]. *)
Definition reward_payment (a v : addr) (x : addr * cosmos_msg) (m : cosmos_msg) : Prop :=
  exists natives tokens coins, x = (v, WasmExecute a (ToFunds (FClaim v natives tokens)) coins) /\
    ((exists d n, In d natives /\ m = BankSend v [(d, n)]) \/
     (exists t n, In t tokens /\ m = WasmExecute t (ToCw20 (Cw20Transfer v n)) [])).
