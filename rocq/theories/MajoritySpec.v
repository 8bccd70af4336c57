(** What groups of voters can bring about, whatever the others do. *)
From Verif Require Import Base OMap OMapLemmas Assets PollModel PollSpec FundsModel MemberModel MemberSpec Msgs ControllerModel ControllerSpec TreasuryModel
  EnterpriseModel OutpostsModel WorldModel WorldSpec LiveSpec EndSpec PurseSpec BallotSpec RecountSpec.

(** The distinct accounts [us] have all said one of [os] on proposal [id] in the end. *)
Definition stand_for {X} (A : addrs) (w : world X) (id : N) (os : list outcome) (us : list addr) : Prop :=
  NoDup us /\ forall u, In u us -> exists o, In o os /\ last_ballot A (w_log w) u id = Some o.

(** They have said nothing. *)
Definition silent {X} (A : addrs) (w : world X) (id : N) (us : list addr) : Prop :=
  NoDup us /\ forall u, In u us -> last_ballot A (w_log w) u id = None.

(** What they weigh together. *)
Definition power {X} (w : world X) (us : list addr) : N := lsum (weight_of (w_member w)) us.

(** The share of the votes that a veto needs. *)
Definition veto_share (pl : poll) : N := match p_veto_threshold pl with Some v => v | None => p_threshold pl end.

(** Enough for yes, against anything the others can do: more than half, the quorum, the threshold, and too little is left for a veto. *)
Definition winning {X} (w : world X) (pl : poll) (us : list addr) : Prop :=
  let s := power w us in let t := weight_now w General in
  t < 2 * s /\ reaches s t (p_quorum pl) /\ reaches s t (p_threshold pl) /\ ~ reaches (t - s) t (veto_share pl).

(** Enough for a veto. *)
Definition vetoing {X} (w : world X) (pl : poll) (us : list addr) : Prop :=
  let s := power w us in let t := weight_now w General in reaches s t (p_quorum pl) /\ reaches s t (veto_share pl).

(** Without them the threshold, or the quorum, cannot be reached. *)
Definition blocking {X} (w : world X) (pl : poll) (us : list addr) : Prop :=
  ~ reaches (weight_now w General - power w us) (weight_now w General) (p_threshold pl).
Definition needed {X} (w : world X) (pl : poll) (us : list addr) : Prop :=
  ~ reaches (weight_now w General - power w us) (weight_now w General) (p_quorum pl).
