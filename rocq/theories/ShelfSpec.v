(** Decisions about the lists of the treasury, and what the DAO is when they have taken effect. *)
From Verif Require Import Base OMap Assets PollModel PollSpec FundsModel MemberModel MemberSpec Msgs ControllerModel ControllerSpec TreasuryModel TreasurySpec
  EnterpriseModel OutpostsModel WorldModel WorldSpec PurseSpec OrderSpec.

(** Actions that concern nothing but the lists of the treasury of this chain, and that a treasury can follow: no cw1155 asset is to be added.
    (That the addresses are valid is checked when a proposal is made.) *)
Definition about_lists (a : proposal_action) : Prop :=
  match a with
  | PUpdateAssets None add remove => Forall addable add /\ Forall valid_asset remove
  | PUpdateNfts None add remove => ~ In 0 add /\ ~ In 0 remove
  | _ => False
  end.

(** Whether asset [x], or collection [n], is on the list after an action, if it was ([P]) before. *)
Definition kept_asset (x : asset) (P : Prop) (a : proposal_action) : Prop :=
  match a with PUpdateAssets None add remove => (P \/ In x add) /\ ~ In x remove | _ => P end.
Definition kept_nft (n : N) (P : Prop) (a : proposal_action) : Prop :=
  match a with PUpdateNfts None add remove => (P \/ In n add) /\ ~ In n remove | _ => P end.

(** Treasury [t'] is [t] with the lists as the actions [l] say, and nothing else changed. *)
Record relisted (l : list proposal_action) (t t' : treasury) : Prop := mk_relisted {
  rl_assets : forall x, listed t' x <-> fold_left (kept_asset x) l (listed t x);
  rl_nfts : forall n, nft_listed t' n <-> fold_left (kept_nft n) l (nft_listed t n);
  rl_admin : tr_admin t' = tr_admin t;
  rl_old : tr_old t' = tr_old t
}.

Definition list_order (a : proposal_action) : treasury_msg :=
  match a with
  | PUpdateAssets _ add remove => TrUpdateAssets add remove
  | PUpdateNfts _ add remove => TrUpdateNfts add remove
  | _ => TrUpdateAssets [] []
  end.

(** The DAO [w] with treasury [t'] when the actions [l] of proposal [id] have been carried out: the messages are on record, all else is as it was. *)
Definition restocked {X} (A : addrs) (w : world X) (id : N) (l : list proposal_action) (t' : treasury) : world X :=
  mk_world (w_enterprise w) (w_ctl w) (w_gov w) (w_member w) (w_council w) (w_funds w) t' (w_outposts w)
    (rev (map (fun a => (a_controller A, treasury_call A None (list_order a))) l) ++ (a_controller A, run_order A id) :: w_log w)
    (w_upgraded w) (w_ext w).
