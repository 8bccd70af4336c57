(** What it means that the DAO's contracts really hold what they owe: the bank, the tokens and the NFT collections
    outside the DAO keep honest ledgers, and a contract's balance there covers its obligations. *)
From Verif Require Import Base OMap Assets PollModel FundsModel FundsSpec MemberModel MemberSpec Msgs ControllerModel TreasuryModel
  EnterpriseModel OutpostsModel WorldModel WorldSpec.

(** Something that can be held: an amount of an asset, or one NFT. *)
Inductive holding := HAmount (a : asset) | HNft (collection token : addr).

(** The outside contract that keeps the ledger of it (none for native coins: the bank module). *)
Definition keeper (h : holding) : option addr :=
  match h with
  | HAmount (Native _) => None
  | HAmount (Cw20 t) | HAmount (Cw1155 t _) => Some t
  | HNft c _ => Some c
  end.

(** How much of it is in a list of coins. *)
Definition in_coins (h : holding) (coins : list coin) : N :=
  match h with
  | HAmount (Native d) => lsum (fun c => if fst c =? d then snd c else 0) coins
  | _ => 0
  end.

(** How much of it a message hands away. *)
Definition sends (h : holding) (m : cosmos_msg) : N :=
  match h, m with
  | HAmount (Native _), BankSend _ coins => in_coins h coins
  | HAmount (Cw20 t), WasmExecute t' (ToCw20 (Cw20Transfer _ n)) _ => if t' =? t then n else 0
  | HNft c k, WasmExecute c' (ToCw721 (Cw721Transfer _ k')) _ => if (c' =? c) && (k' =? k) then 1 else 0
  | _, _ => 0
  end.

(** How much of it a message of [s] reports to have arrived at [u]: the notification of the ledger's contract. *)
Definition reports (u : addr) (h : holding) (s : addr) (m : cosmos_msg) : N :=
  match m with
  | WasmExecute to wm _ =>
      if to =? u then
        match h, wm with
        | HAmount (Cw20 t), ToMembership (TokenMsg (TReceive n _)) => if s =? t then n else 0
        | HAmount (Cw20 t), ToFunds (FReceive n _) => if s =? t then n else 0
        | HAmount (Cw20 t), ToController (CReceive _ n _) => if s =? t then n else 0
        | HNft c k, ToMembership (NftMsg (NReceive k' _)) => if (s =? c) && (k' =? k) then 1 else 0
        | _, _ => 0
        end
      else 0
  | _ => 0
  end.

(** The messages a membership contract and the distributor send: transfers, and weight changes to the hooks. *)
Definition ordinary (m : cosmos_msg) : Prop :=
  match m with
  | BankSend _ _ => True
  | WasmExecute _ (ToCw20 (Cw20Transfer _ _)) [] => True
  | WasmExecute _ (ToCw721 (Cw721Transfer _ _)) [] => True
  | WasmExecute _ (ToController (CWeightsChanged _)) [] => True
  | _ => False
  end.

(** The outside keeps an honest ledger [bal] of what [u] has of [h]: coins attached to a call arrive; a notification
    is only sent after as much has arrived; and nothing is taken from [u] except by a transfer [u] itself sends, and
    then at most the amount of it. Nothing is assumed about messages of [u] that are not [fit]. *)
Record honest_to {X} (fit : cosmos_msg -> Prop) (Out : outside X) (u : addr) (h : holding) (bal : X -> N) : Prop := mk_honest {
  hl_pay : forall x s to coins x', x_pay Out x s to coins = Ok x' ->
    bal x + (if to =? u then in_coins h coins else 0) <= bal x' + (if s =? u then in_coins h coins else 0);
  hl_exec : forall w e s to m coins x subs d, x_exec Out w e s to m coins = Ok (x, subs, d) ->
    (s = u -> fit (WasmExecute to m coins)) ->
    bal (w_ext w) + lsum (fun y => reports u h to (sm_msg y)) subs
    <= bal x + (if s =? u then sends h (WasmExecute to m coins) else 0);
  hl_reply : forall w e self id r x subs, x_reply Out w e self id r = Ok (x, subs) ->
    bal (w_ext w) + lsum (fun y => reports u h self (sm_msg y)) subs <= bal x;
  hl_msg : forall w e s m x d, x_msg Out w e s m = Ok (x, d) -> (s = u -> fit m) ->
    bal (w_ext w) <= bal x + (if s =? u then sends h m else 0)
}.

(** For a membership contract and the distributor: nothing is assumed about other messages than the [ordinary] ones. *)
Definition honest_ledger {X} (Out : outside X) (u : addr) (h : holding) (bal : X -> N) : Prop := honest_to ordinary Out u h bal.

(** The ledger is not one of the DAO's contracts, and a contract signs no transactions. *)
Definition foreign (A : addrs) (h : holding) (ts : list tx) : Prop :=
  forall t, keeper h = Some t -> is_dao A t = false /\ forall x, In x ts -> tx_signer x <> t.

(** How often the NFT [t] is staked or claimed, by anyone. *)
Definition booked (s : nft_staking) (t : N) : N :=
  (if ohas (ns_stakes s) t then 1 else 0) + lsum (fun c => count t (nc_tokens c)) (ovals (ns_claims s)).

(** * Deposits *)

(** How much of [h] a deposit is. *)
Definition deposited (h : holding) (a : deposit_asset) : N :=
  match h, a with
  | HAmount (Native d), DDenom d' n => if d' =? d then n else 0
  | HAmount (Cw20 t), DCw20 t' n => if t' =? t then n else 0
  | HNft c k, DCw721 c' ts => if c' =? c then count k ts else 0
  | _, _ => 0
  end.

(** How much of [h] the controller owes for a proposal: its deposit, until it is resolved. *)
Definition owed_for (h : holding) (p : proposal_info) : N :=
  match pi_executed_at p, pi_deposit p with None, Some d => deposited h (dp_asset d) | _, _ => 0 end.

(** The deposits of all proposals not yet resolved. *)
Definition open_deposits (h : holding) (s : ctl) : N := lsum (owed_for h) (ovals (ct_proposals s)).

(** A message of the controller that is one of the three transfers, or gives nothing away. *)
Definition plain_payment (u : addr) (m : cosmos_msg) : Prop := ~ In SentElse (payment u m).

(** The collection [c] is honest to [u] about its token [k]: if [u] has it, the answer to who owns it is [u], without
    approvals; when [u] fetches a token of it, it has it then, and the transfer calls nobody. *)
Record honest_collection {X} (Out : outside X) (u : addr) (c k : N) (bal : X -> N) : Prop := mk_honest_collection {
  hc_one : forall x, bal x <= 1;
  hc_owner : forall x owner approvals, x_nft_owner Out x c k = Ok (owner, approvals) -> bal x = 1 -> owner = u /\ approvals = [];
  hc_fetch : forall w e k' coins x subs d, x_exec Out w e u c (ToCw721 (Cw721Transfer u k')) coins = Ok (x, subs, d) ->
    subs = [] /\ (k' = k -> bal x = 1)
}.

(** No proposal that was run used [ExecuteMsgs] to make the controller create a proposal with NFTs as deposit. *)
Definition no_self_deposits {X} (A : addrs) (w : world X) : Prop :=
  forall id p m, acted A w id -> oget (ct_proposals (w_ctl w)) id = Some p -> In m (customs p) ->
    forall actions owner tokens coins, m <> WasmExecute (a_controller A) (ToController (CCreateProposalNft actions owner tokens)) coins.
