(** Votes in which the same weights are spread over other accounts. *)
From Verif Require Import Base OMap Assets PollModel PollSpec FundsModel MemberModel MemberSpec Msgs ControllerModel ControllerSpec TreasuryModel
  EnterpriseModel OutpostsModel WorldModel WorldSpec LiveSpec EndSpec PurseSpec BallotSpec RecountSpec MajoritySpec.

(** [xs] are the accounts with weight in [v]; account [x] stands for [f x] in [w]: everybody's weight in [w] is that of all accounts in [v] that stand for them together,
    and these say the same as they. *)
Definition spread {X Y} (A B : addrs) (w : world X) (id : N) (v : world Y) (k : N) (f : addr -> addr) (xs : list addr) : Prop :=
  NoDup xs /\ (forall x, weight_of (w_member v) x <> 0 -> In x xs) /\
  (forall u, weight_of (w_member w) u = lsum (weight_of (w_member v)) (filter (fun x => f x =? u) xs)) /\
  (forall x, weight_of (w_member v) x <> 0 -> last_ballot B (w_log v) x k = last_ballot A (w_log w) (f x) id).

(** The accounts have other names in [v]: what is [u] in [w] is [g u] there. *)
Definition renamed_by {X Y} (A B : addrs) (w : world X) (id : N) (v : world Y) (k : N) (f g : addr -> addr) : Prop :=
  (forall x, g (f x) = x) /\ (forall u, f (g u) = u) /\
  (forall u, weight_of (w_member v) (g u) = weight_of (w_member w) u) /\
  (forall u, last_ballot B (w_log v) (g u) k = last_ballot A (w_log w) u id).
