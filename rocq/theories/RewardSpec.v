(** What it means that reward weights follow voting weights. *)
From Verif Require Import Base OMap Assets PollModel FundsModel MemberModel MemberSpec Msgs ControllerModel WorldModel WorldSpec.

(** The weight with which [u] takes part in distributions, before the minimum is applied. *)
Definition reward_weight {X} (w : world X) (u : addr) : N := ogetN (f_weights (w_funds w)) u.

(** Messages that change whom the membership contract tells about new weights, or replace the member list as a whole. *)
Definition resets (m : member_msg) : Prop :=
  match m with
  | TokenMsg (TCommon (SAddHook _)) | TokenMsg (TCommon (SRemoveHook _)) => True
  | DenomMsg (DCommon (SAddHook _)) | DenomMsg (DCommon (SRemoveHook _)) => True
  | NftMsg (NAddHook _) | NftMsg (NRemoveHook _) => True
  | MultisigMsg (MSetMembers _) | MultisigMsg (MAddHook _) | MultisigMsg (MRemoveHook _) => True
  | _ => False
  end.

(** The message writes reward weights, or makes the membership contract keep a change from the controller. *)
Definition meddles (A : addrs) (m : cosmos_msg) : Prop :=
  match m with
  | WasmExecute to (ToFunds (FUpdateUserWeights _)) _ => to = a_funds A
  | WasmExecute to (ToMembership mm) _ => to = a_membership A /\ resets mm
  | _ => False
  end.

(** The controller was told by itself to run the actions of proposal [id] (and this was not rolled back). *)
Definition carried_out {X} (A : addrs) (w : world X) (id : N) : Prop :=
  exists coins, In (a_controller A, WasmExecute (a_controller A) (ToController (CExecuteActions id)) coins) (w_log w).

(** No custom message of a proposal whose actions were run meddles with the reward weights. *)
Definition undisturbed {X} (A : addrs) (w : world X) : Prop :=
  forall id p m, carried_out A w id -> oget (ct_proposals (w_ctl w)) id = Some p -> In m (customs p) -> ~ meddles A m.

(** [u] has had neither a new voting weight nor a new reward weight since [w0]. *)
Definition as_before {X} (w0 w : world X) (u : addr) : Prop :=
  reward_weight w u = reward_weight w0 u /\ weight_of (w_member w) u = weight_of (w_member w0) u.

(** What a weight counts for when a minimum is set. *)
Definition counted_weight (minimum x : N) : N := if minimum <=? x then x else 0.
