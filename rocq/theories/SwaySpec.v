(** What it does to the outcome that somebody says something else. *)
From Verif Require Import Base OMap Assets PollModel PollSpec FundsModel MemberModel MemberSpec Msgs ControllerModel ControllerSpec TreasuryModel
  EnterpriseModel OutpostsModel WorldModel WorldSpec LiveSpec EndSpec PurseSpec BallotSpec RecountSpec MajoritySpec.

(** In [v] everybody says on proposal [k] what they say on [id] in [w], but for some who say [o] instead of one of [os] ([None]: nothing at all). *)
Definition swayed {X Y} (A B : addrs) (w : world X) (id : N) (v : world Y) (k : N) (os : list (option outcome)) (o : outcome) : Prop :=
  forall u, let before := last_ballot A (w_log w) u id in let after := last_ballot B (w_log v) u k in
  after = before \/ (In before os /\ after = Some o).

(** Everybody weighs the same in both. *)
Definition evenly {X Y} (w : world X) (v : world Y) : Prop := forall u, weight_of (w_member w) u = weight_of (w_member v) u.

(** Those who said anything are enough for the quorum. *)
Definition quorate {X} (A : addrs) (w : world X) (id : N) (pl : poll) : Prop :=
  reaches (support A w id Yes + support A w id No + support A w id Abstain + support A w id Veto) (weight_now w General) (p_quorum pl).

(** The proposal has passed. *)
Definition carried (pl : poll) : Prop := exists n, p_status pl = Passed 0 n.
