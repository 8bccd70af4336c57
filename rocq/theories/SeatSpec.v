(** What each vote counts for, recounted from the messages that were delivered. *)
From Verif Require Import Base OMap OMapLemmas Assets PollModel PollSpec FundsModel MemberModel MemberSpec Msgs ControllerModel ControllerSpec TreasuryModel
  EnterpriseModel OutpostsModel WorldModel WorldSpec LiveSpec EndSpec PurseSpec BallotSpec RecountSpec.

(** By the message [x] the governance contract is told what [u] weighs now. *)
Definition told (A : addrs) (u : addr) (x : addr * cosmos_msg) : option N :=
  match snd x with
  | WasmExecute to (ToGovernance (GUpdateVotes v n)) _ => if (to =? a_governance A) && (v =? u) then Some n else None
  | _ => None
  end.

(** What is voted in by the ballot [x]. *)
Definition kind (x : addr * cosmos_msg) : proposal_type :=
  match snd x with WasmExecute _ (ToController (CCastCouncilVote _ _)) _ => Council | _ => General end.

(** What [u] brings to a ballot [x] after the messages [l]: the weight in the council or in the DAO, according to what is voted in;
    [m] and [c] are the first weights in the DAO and in the council. *)
Definition brings (A : addrs) (m c : addr -> N) (u : addr) (l : list (addr * cosmos_msg)) (x : addr * cosmos_msg) : N :=
  match kind x with Council => recount (a_council A) u (c u) l | General => recount (a_membership A) u (m u) l end.

(** What the vote of [u] on proposal [id] counts after the messages [l] (the newest first): what [u] brought to the last ballot,
    unless the governance contract was told something else since. *)
Fixpoint counts (A : addrs) (m c : addr -> N) (l : list (addr * cosmos_msg)) (u : addr) (id : N) : option N :=
  match l with
  | [] => None
  | x :: l =>
      match ballot A u id x with
      | Some _ => Some (brings A m c u l x)
      | None => match told A u x with Some n => option_map (fun _ => n) (counts A m c l u id) | None => counts A m c l u id end
      end
  end.

(** What all votes for an outcome count together. *)
Definition backing {X} (A : addrs) (w0 w : world X) (id : N) (o : outcome) : N :=
  lsum (fun u => dflt 0 (counts A (weight_of (w_member w0)) (weight_of (w_council w0)) (w_log w) u id)) (supporters A (w_log w) id o).

(** The messages [l] (the newest first) end with a ballot of [u] on [id] before which there were the messages [l2], and with the messages [l1] after it. *)
Definition voted_at (A : addrs) (u : addr) (id : N) (l l1 : list (addr * cosmos_msg)) (x : addr * cosmos_msg) (l2 : list (addr * cosmos_msg)) : Prop :=
  l = l1 ++ x :: l2 /\ ballot A u id x <> None /\ Forall (fun y => ballot A u id y = None) l1.

(** The newest message of [l] by which the governance contract is told what [u] weighs. *)
Fixpoint last_told (A : addrs) (u : addr) (l : list (addr * cosmos_msg)) : option N :=
  match l with [] => None | x :: l => match told A u x with Some n => Some n | None => last_told A u l end end.

Definition all_backing {X} (A : addrs) (w0 w : world X) (id : N) : N :=
  backing A w0 w id Yes + backing A w0 w id No + backing A w0 w id Abstain + backing A w0 w id Veto.

(** Nobody in the council weighs more than 1 at first or is given more. *)
Definition one_each {X} (A : addrs) (w0 w : world X) : Prop :=
  (exists q, w_council w0 = MMultisig q) /\ (forall u, weight_of (w_council w0) u <= 1) /\
  forall s l coins, In (s, WasmExecute (a_council A) (ToMembership (MultisigMsg (MSetMembers l))) coins) (w_log w) \/
    In (s, WasmExecute (a_council A) (ToMembership (MultisigMsg (MUpdateMembers l))) coins) (w_log w) -> Forall (fun p => snd p <= 1) l.
