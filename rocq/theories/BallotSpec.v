(** Whose votes are counted, independently of how the model computes. *)
From Verif Require Import Base OMap Assets PollModel PollSpec FundsModel MemberModel MemberSpec Msgs ControllerModel ControllerSpec TreasuryModel
  EnterpriseModel OutpostsModel WorldModel WorldSpec PurseSpec.

(** What [u] says by the delivered message [x] about proposal [id]: only own calls of the controller count. *)
Definition ballot (A : addrs) (u : addr) (id : N) (x : addr * cosmos_msg) : option outcome :=
  match snd x with
  | WasmExecute to (ToController (CCastVote i o)) _ | WasmExecute to (ToController (CCastCouncilVote i o)) _ =>
      if (fst x =? u) && (to =? a_controller A) && (i =? id) then Some o else None
  | _ => None
  end.

(** What [u] said last (the newest message comes first). *)
Fixpoint last_ballot (A : addrs) (l : list (addr * cosmos_msg)) (u : addr) (id : N) : option outcome :=
  match l with
  | [] => None
  | x :: l => match ballot A u id x with Some o => Some o | None => last_ballot A l u id end
  end.

(** The recorded vote of [u]: what for. *)
Definition chosen {X} (w : world X) (u : addr) (id : N) : option N := option_map v_outcome (get_vote (w_gov w) u id).

(** A message that casts a vote at the governance contract directly, in anybody's name. *)
Definition forges (A : addrs) (m : cosmos_msg) : bool :=
  match m with WasmExecute to (ToGovernance (GCastVote _ _ _ _)) _ => to =? a_governance A | _ => false end.

(** No proposal that was run made the controller do so. *)
Definition unforged {X} (A : addrs) (w : world X) : Prop :=
  forall id p m, In id (runs A w) -> oget (ct_proposals (w_ctl w)) id = Some p -> In m (customs p) -> forges A m = false.

(** All whose last word on [id] was [o]. *)
Definition said (o : outcome) (x : option outcome) : bool := match x with Some o' => outcome_u8 o' =? outcome_u8 o | None => false end.
Definition supporters (A : addrs) (l : list (addr * cosmos_msg)) (id : N) (o : outcome) : list addr :=
  filter (fun u => said o (last_ballot A l u id)) (nodup N.eq_dec (map fst l)).

(** What they weigh together at present. *)
Definition support {X} (A : addrs) (w : world X) (id : N) (o : outcome) : N :=
  lsum (weight_of (w_member w)) (supporters A (w_log w) id o).
