(** Specifications for the enterprise contract, the version registry and the attestation contract. *)
From Coq Require Import Sorting.Sorted.
From Verif Require Import Base OMap MemberModel Msgs EnterpriseModel.

(** ** Versions *)

(** (major, minor, patch) in lexicographic order, the derived order of the Rust type. *)
Definition triple := (N * N * N)%type.
Definition triple_lt (a b : triple) : Prop :=
  let '(a1, a2, a3) := a in let '(b1, b2, b3) := b in
  a1 < b1 \/ a1 = b1 /\ (a2 < b2 \/ a2 = b2 /\ a3 < b3).
Definition triple_le (a b : triple) : Prop := triple_lt a b \/ a = b.
(** All three are u64. *)
Definition u64_triple (a : triple) : Prop := let '(a1, a2, a3) := a in a1 < M64 /\ a2 < M64 /\ a3 < M64.
Definition code_of (a : triple) : N := let '(a1, a2, a3) := a in version a1 a2 a3.

(** ** Registry *)

Definition released (r : registry) (v : version_info) : Prop := oget (rg_versions r) (vi_version v) = Some v.
(** Every entry is stored under its own number. *)
Definition registry_ok (r : registry) : Prop :=
  forall k v, oget (rg_versions r) k = Some v -> vi_version v = k.

Definition ascending (l : list version_info) : Prop := StronglySorted (fun a b => vi_version a < vi_version b) l.

(** The versions above [lo] and up to [hi], in ascending order: there is exactly one such list. *)
Definition released_between (r : registry) (lo hi : N) (l : list version_info) : Prop :=
  ascending l /\ forall v, In v l <-> released r v /\ lo < vi_version v /\ vi_version v <= hi.

(** An edited field: the new value if one is given. *)
Definition edited (old : N) (new : option N) (now : N) : Prop :=
  match new with Some n => now = n | None => now = old end.

(** ** Enterprise *)

Definition controller_of (e : enterprise) : option addr :=
  match en_components e with Some c => Some (c_controller c) | None => None end.
Definition attestation_of (e : enterprise) : option addr :=
  match en_components e with Some c => c_attestation c | None => None end.

(** Equal except for the attestation contract. *)
Definition same_wiring (a b : components) : Prop :=
  c_governance a = c_governance b /\ c_controller a = c_controller b /\ c_treasury a = c_treasury b /\
  c_outposts a = c_outposts b /\ c_funds a = c_funds b /\ c_membership a = c_membership b /\
  c_council a = c_council b.

Definition valid_components (c : components) : Prop :=
  c_governance c <> 0 /\ c_controller c <> 0 /\ c_treasury c <> 0 /\ c_outposts c <> 0 /\ c_funds c <> 0 /\
  c_membership c <> 0 /\ c_council c <> 0 /\ c_attestation c <> Some 0.

Definition is_finalize (m : enterprise_msg) : bool := match m with EnFinalize _ => true | _ => false end.

(** The wiring is there exactly if it was finalised. *)
Definition en_ok (e : enterprise) : Prop := en_finalized e = is_some (en_components e).

(** What a metadata update leaves or sets. *)
Definition changed {A} (old : A) (m : modify A) (now : A) : Prop :=
  match m with Change a => now = a | NoChange => now = old end.

(** ** Restriction *)

(** [u] must be kept out: the DAO has an attestation and [u] has not signed it. *)
Definition must_sign (signed : addr -> N -> res bool) (e : enterprise) (u : N) : Prop :=
  exists a, attestation_of e = Some a /\ signed a u = Ok false.

(** Who acts by a message to the controller: propose, vote, execute. *)
Definition acting (sender : addr) (m : controller_msg) : option N :=
  match m with
  | CCreateProposal _ _ | CCreateProposalNft _ _ _ | CCreateCouncilProposal _ | CCastVote _ _
  | CCastCouncilVote _ _ | CExecuteProposal _ => Some sender
  | CReceive from _ _ => Some from
  | CWeightsChanged _ | CExecuteActions _ | CDeployInitial => None
  end.

(** The weight a membership contract records now. *)
Definition weight_now (st : member_state) (u : addr) : N :=
  match st with
  | MToken s | MDenom s => member_weight (st_members s) u
  | MNft s => member_weight (ns_members s) u
  | MMultisig m => member_weight m u
  end.
Definition is_multisig (st : member_state) : bool := match st with MMultisig _ => true | _ => false end.
