(** Decisions to pay coins of the treasury, and what comes of them. *)
From Verif Require Import Base OMap Assets PollModel PollSpec FundsModel MemberModel MemberSpec Msgs ControllerModel ControllerSpec TreasuryModel
  EnterpriseModel OutpostsModel WorldModel WorldSpec PurseSpec OrderSpec.

(** Actions that ask for nothing but coins of the treasury of this chain. *)
Definition coins_only (assets : list (asset * N)) : Prop := Forall (fun x => match fst x with Native _ => True | _ => False end) assets.
Definition grant (a : proposal_action) : Prop :=
  match a with PRequestFunding None _ assets => coins_only assets | _ => False end.

(** The payments [assets] to [to], one after the other, as far as the bank agrees. *)
Fixpoint pay_out {X} (Out : outside X) (A : addrs) (e : env) (to : N) (assets : list (asset * N)) (w : world X) : res (world X) :=
  match assets with
  | [] => Ok w
  | (Native d, n) :: rest =>
      let w1 := note w (a_treasury A) (BankSend to [(d, n)]) in
      r <- x_msg Out w1 e (a_treasury A) (BankSend to [(d, n)]) ;;
      pay_out Out A e to rest (set_ext w1 (fst r))
  | _ :: _ => Err EStd
  end.

(** The same for all actions of a proposal: the controller gives the order, the treasury pays. *)
Fixpoint grants_paid {X} (Out : outside X) (A : addrs) (e : env) (l : list proposal_action) (w : world X) : res (world X) :=
  match l with
  | [] => Ok w
  | PRequestFunding None to assets :: rest =>
      w1 <- pay_out Out A e to assets (note w (a_controller A) (treasury_call A None (TrSpend to assets))) ;;
      grants_paid Out A e rest w1
  | _ :: _ => Err EStd
  end.

(** What is on record of them. *)
Definition payment (A : addrs) (to : N) (x : asset * N) : list (addr * cosmos_msg) :=
  match fst x with Native d => [(a_treasury A, BankSend to [(d, snd x)])] | _ => [] end.
Definition payments (A : addrs) (a : proposal_action) : list (addr * cosmos_msg) :=
  match a with
  | PRequestFunding None to assets => (a_controller A, treasury_call A None (TrSpend to assets)) :: flat_map (payment A to) assets
  | _ => []
  end.

(** What comes of a proposal that has passed, if the payments come to [due]: all of them or, if one is refused, none. *)
Definition all_or_nothing {X} (due : res (world X)) (without : world X) : world X := match due with Ok w => w | Err _ => without end.
