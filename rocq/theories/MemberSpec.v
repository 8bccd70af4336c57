(** What the membership properties mean. *)
From Verif Require Import Base OMap Assets MemberModel.

(** State after a history of calls (failed calls change nothing). *)
Definition member_run (st : member_state) (cs : list member_call) : member_state :=
  fold_left (fun st c => fst (member_step st c)) cs st.

Definition member_reachable (st : member_state) : Prop :=
  exists e i st0 cs, member_instantiate e i = Ok st0 /\ st = member_run st0 cs.

Definition accepts (st : member_state) (c : member_call) (st' : member_state) (outs : list member_out) : Prop :=
  member_execute (mc_oracle c) st (mc_env c) (mc_sender c) (mc_coins c) (mc_msg c) = Ok (st', outs).

(** * Weights *)

(** A user's stored weight (0 for strangers). *)
Definition weight_of (st : member_state) (u : N) : N := ogetN (m_weights (members_of st)) u.

Definition total_now (st : member_state) : N := query_total_weight (members_of st) Never.

(** Initial checkpoints are in order, none later than the contract's creation. *)
Fixpoint ordered_upto (bound : N) (l : list (N * N)) : Prop :=
  match l with
  | [] => True
  | a :: t => fst a <= bound /\ (forall b, In b t -> fst a <= fst b) /\ ordered_upto bound t
  end.

Definition checkpoints_by_height (i : member_init) : list (N * N) :=
  match i with IToken _ _ _ bh _ _ | INft _ _ _ bh _ _ | IMultisig _ _ bh _ _ => bh | IDenom _ _ _ _ => [] end.
Definition checkpoints_by_seconds (i : member_init) : list (N * N) :=
  match i with IToken _ _ _ _ bs _ | INft _ _ _ _ bs _ | IMultisig _ _ _ bs _ => bs | IDenom _ _ _ _ => [] end.

(** The last of the checkpoints taken before [h]. *)
Definition last_before (h : N) (l : list (N * N)) : N :=
  fold_left (fun acc c => if fst c <? h then snd c else acc) l 0.

(** Block heights (resp. times) of consecutive calls never go down. *)
Fixpoint rising (key : member_call -> N) (from : N) (cs : list member_call) : Prop :=
  match cs with
  | [] => True
  | c :: rest => from <= key c /\ rising key (key c) rest
  end.
Definition call_height (c : member_call) : N := e_height (mc_env c).
Definition call_second (c : member_call) : N := ts_seconds (e_time (mc_env c)).

(** * Custody of fungible stakes *)

(** Amount of the staked asset a call brings in, if the contract accepts it. *)
Definition staked_in (st : member_state) (c : member_call) : N :=
  match member_execute (mc_oracle c) st (mc_env c) (mc_sender c) (mc_coins c) (mc_msg c), mc_msg c, mc_coins c with
  | Ok _, TokenMsg (TReceive amount _), _ => amount
  | Ok _, DenomMsg (DStake _), [(_, amount)] => amount
  | _, _, _ => 0
  end.

Definition paid_out (outs : list member_out) : N :=
  lsum (fun o => match o with OPay _ _ amount => amount | _ => 0 end) outs.

Record custody := mk_custody { cu_state : member_state; cu_in : N; cu_out : N }.
Definition custody_step (cu : custody) (c : member_call) : custody :=
  {| cu_state := fst (member_step (cu_state cu) c);
     cu_in := cu_in cu + staked_in (cu_state cu) c;
     cu_out := cu_out cu + paid_out (snd (member_step (cu_state cu) c)) |}.
Definition custody_run (st : member_state) (cs : list member_call) : custody :=
  fold_left custody_step cs (mk_custody st 0 0).

Definition all_stakes (s : staking) : N := osum (fun _ w => w) (m_weights (st_members s)).
Definition all_claims (s : staking) : N := osum (fun _ c => cl_amount c) (st_claims s).

(** The fungible contracts, by the asset they stake. *)
Definition fungible (st : member_state) (s : staking) : Prop := st = MToken s \/ st = MDenom s.

(** * Claims *)

Definition reached (e : env) (r : release_at) : bool :=
  match r with RTimestamp t => t <=? e_time e | RHeight h => h <=? e_height e end.

(** [u]'s claims that have reached their release point *)
Definition due (e : env) (u : addr) (c : claim) : bool := (cl_user c =? u) && reached e (cl_release c).
Definition nft_due (e : env) (u : addr) (c : nft_claim) : bool := (nc_user c =? u) && reached e (nc_release c).

(** Sum of a user's due claims. *)
Definition due_amount (e : env) (u : addr) (s : staking) : N :=
  osum (fun _ c => if due e u c then cl_amount c else 0) (st_claims s).

(** one unlocking period after [e] *)
Definition release_after (e : env) (p : duration) : release_at :=
  match p with
  | DHeight h => RHeight (e_height e + h)
  | DTime s => RTimestamp (e_time e + s * NANOS)
  end.
(** the point the code computes: 64-bit native addition of heights, 64-bit native multiplication of seconds *)
Definition release_computed (e : env) (p : duration) : release_at :=
  match p with
  | DHeight h => RHeight ((e_height e + h) mod 2 ^ 64)
  | DTime s => RTimestamp (e_time e + (s * NANOS) mod 2 ^ 64)
  end.
(** ... if it is a timestamp *)
Definition release_exists (e : env) (p : duration) : Prop :=
  match p with
  | DHeight _ => True
  | DTime s => e_time e + (s * NANOS) mod 2 ^ 64 < 2 ^ 64
  end.
Definition release_fits (e : env) (p : duration) : Prop :=
  match p with
  | DHeight h => e_height e + h < 2 ^ 64
  | DTime s => e_time e + s * NANOS < 2 ^ 64
  end.

(** * Custody of NFTs *)

(** The collection a receive call would have to come from. *)
Definition collection_of (s : nft_staking) (o : member_oracle) : option addr :=
  match ns_contract s with
  | NCw721 a => Some a
  | NIcs721 _ _ => match mo_ics721 o with Ok r => r | Err _ => None end
  end.

(** A ledger kept from outside: which NFT is with the contract, and for whom. Handing in a token books it to
    the user named in the message; the contract sending a token away strikes it out. *)
Definition book_in (st : member_state) (c : member_call) (held : omap addr) : omap addr :=
  match member_execute (mc_oracle c) st (mc_env c) (mc_sender c) (mc_coins c) (mc_msg c), mc_msg c with
  | Ok _, NftMsg (NReceive t (NStake u)) => oset held t u
  | Ok _, NftMsg (NReceive t (NAddClaim u _)) => oset held t u
  | _, _ => held
  end.
Definition book_out (outs : list member_out) (held : omap addr) : omap addr :=
  fold_left (fun held o => match o with OSendNft _ _ t => odel held t | _ => held end) outs held.

Record nft_ledger := mk_ledger { le_state : member_state; le_held : omap addr }.
Definition ledger_step (l : nft_ledger) (c : member_call) : nft_ledger :=
  {| le_state := fst (member_step (le_state l) c);
     le_held := book_out (snd (member_step (le_state l) c)) (book_in (le_state l) c (le_held l)) |}.
Definition ledger_run (st : member_state) (cs : list member_call) : nft_ledger :=
  fold_left ledger_step cs (mk_ledger st oempty).

(** The collection only hands in tokens the contract does not already hold. *)
Definition honest_call (l : nft_ledger) (c : member_call) : Prop :=
  forall t h st' outs, mc_msg c = NftMsg (NReceive t h) -> accepts (le_state l) c st' outs -> oget (le_held l) t = None.
Fixpoint honest (l : nft_ledger) (cs : list member_call) : Prop :=
  match cs with
  | [] => True
  | c :: rest => honest_call l c /\ honest (ledger_step l c) rest
  end.

(** How often token [t] is staked by [u], and how often it occurs in claims of [u]. *)
Definition count (t : N) (l : list N) : N := lsum (fun x => if x =? t then 1 else 0) l.
Definition times_staked (s : nft_staking) (t : N) (u : addr) : N :=
  match oget (ns_stakes s) t with Some v => if v =? u then 1 else 0 | None => 0 end.
Definition times_claimed (s : nft_staking) (t : N) (u : addr) : N :=
  lsum (fun c => if nc_user c =? u then count t (nc_tokens c) else 0) (ovals (ns_claims s)).

(** * Reports *)

(** All changes a hook is told about by a call's messages, in order. *)
Definition told (h : addr) (outs : list member_out) : list weight_change :=
  flat_map (fun o => match o with OReport h' ch => if h' =? h then ch else [] | _ => [] end) outs.

(** Follow the reported changes of [u] starting from weight [w]; [None] if a report's old weight is wrong. *)
Definition replay (u : addr) (w : N) (changes : list weight_change) : option N :=
  fold_left (fun acc ch =>
    match acc with
    | Some w => if wc_user ch =? u then (if wc_old ch =? w then Some (wc_new ch) else None) else Some w
    | None => None
    end) changes (Some w).

(** The call replaces the whole list of multisig members, and [u] is not on the new list. *)
Definition left_out (c : member_call) (u : addr) : Prop := exists l, mc_msg c = MultisigMsg (MSetMembers l) /\ ~ In u (map fst l).

Definition period_of (st : member_state) : option duration :=
  match st with
  | MToken s | MDenom s => Some (st_period s)
  | MNft s => Some (ns_period s)
  | MMultisig _ => None
  end.

(** The same message, to either fungible contract. *)
Definition stake_call (c : member_call) (m : stake_msg) : Prop :=
  mc_msg c = TokenMsg (TCommon m) \/ mc_msg c = DenomMsg (DCommon m).

(** Number of NFTs [u] has staked. *)
Definition nfts_staked (s : nft_staking) (u : addr) : N := osum (fun _ v => if v =? u then 1 else 0) (ns_stakes s).
