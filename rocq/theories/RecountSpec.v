(** Weights and votes recounted from the messages that were delivered, independently of the contracts' own bookkeeping. *)
From Verif Require Import Base OMap OMapLemmas Assets PollModel PollSpec FundsModel MemberModel MemberSpec Msgs ControllerModel ControllerSpec TreasuryModel
  EnterpriseModel OutpostsModel WorldModel WorldSpec LiveSpec EndSpec PurseSpec BallotSpec.

(** The entry for [u] in a list of members. *)
Definition entry (u : addr) (l : list (N * N)) : option N := option_map snd (find (fun p => fst p =? u) l).
Definition entries (u : addr) (l : list (N * N)) : N := lsum snd (filter (fun p => fst p =? u) l).

(** What [u] weighs after the sender [s] has called a membership contract, if [u] weighed [n] before. *)
Definition weighs_after (u s : addr) (m : member_msg) (coins : list coin) (n : N) : N :=
  match m with
  | TokenMsg (TReceive k (HStake v)) => if v =? u then n + k else n
  | TokenMsg (TReceive _ (HAddStakes l)) => n + entries u l
  | DenomMsg (DStake o) => if (match o with Some v => v | None => s end) =? u then n + lsum snd coins else n
  | TokenMsg (TCommon (SUnstake k)) | DenomMsg (DCommon (SUnstake k)) => if s =? u then n - k else n
  | NftMsg (NReceive _ (NStake v)) => if v =? u then n + 1 else n
  | NftMsg (NUnstake ts) => if s =? u then n - N.of_nat (length ts) else n
  | MultisigMsg (MUpdateMembers l) => match entry u l with Some k => k | None => n end
  | MultisigMsg (MSetMembers l) => match entry u l with Some k => k | None => 0 end
  | _ => n
  end.

(** The same for any delivered message: only calls of the contract at [a] matter. *)
Definition reweigh (a u : addr) (x : addr * cosmos_msg) (n : N) : N :=
  match snd x with
  | WasmExecute to (ToMembership m) coins => if to =? a then weighs_after u (fst x) m coins n else n
  | _ => n
  end.

(** What [u] weighs after the messages [l] (the newest first), if [u] weighed [n] before. *)
Definition recount (a u : addr) (n : N) (l : list (addr * cosmos_msg)) : N := fold_right (reweigh a u) n l.

(** The votes for an outcome, counted from the first weights and the delivered messages alone. *)
Definition votes_for (A : addrs) (first : addr -> N) (l : list (addr * cosmos_msg)) (id : N) (o : outcome) : N :=
  lsum (fun u => recount (a_membership A) u (first u) l) (supporters A l id o).

(** [us] are distinct and include everybody with weight, by the same account. *)
Definition roll (A : addrs) (first : addr -> N) (l : list (addr * cosmos_msg)) (us : list addr) : Prop :=
  NoDup us /\ forall u, recount (a_membership A) u (first u) l <> 0 -> In u us.
Definition all_votes (A : addrs) (first : addr -> N) (l : list (addr * cosmos_msg)) (us : list addr) : N :=
  lsum (fun u => recount (a_membership A) u (first u) l) us.

(** What a message of [u] to the contract at [a] takes out. *)
Definition takes_out (a u : addr) (x : addr * cosmos_msg) : N :=
  match snd x with
  | WasmExecute to (ToMembership (TokenMsg (TCommon (SUnstake k)))) _ | WasmExecute to (ToMembership (DenomMsg (DCommon (SUnstake k)))) _ =>
      if (to =? a) && (fst x =? u) then k else 0
  | WasmExecute to (ToMembership (NftMsg (NUnstake ts))) _ => if (to =? a) && (fst x =? u) then N.of_nat (length ts) else 0
  | _ => 0
  end.

(** A general vote of a new DAO: [w] is the DAO before the end, and [pl] the poll then; [pl'] is the poll some time after it was decided. *)
Record held {X} (Out : outside X) (A : addrs) (w0 w : world X) (id : N) (pl pl' : poll) : Prop := {
  he_new : new_dao A w0;
  he_poll : oget (g_polls (w_gov w)) id = Some pl;
  he_story : exists birth before later ends, w = world_run Out A w0 before /\
    created_by birth (w_member w0) /\ created_by birth (w_council w0) /\ timely birth (before ++ later) /\
    let w' := world_run Out A w0 (before ++ later) in
    lasting w /\ lasting w' /\ calm A w' /\ closing w General id ends /\ seconds_before ends before /\ all_after ends later /\
    oget (g_polls (w_gov w')) id = Some pl' /\ p_status pl' <> InProgress ends
}.

(** The rules of two polls are the same. *)
Definition same_rules (p q : poll) : Prop :=
  p_quorum p = p_quorum q /\ p_threshold p = p_threshold q /\ p_veto_threshold p = p_veto_threshold q.
