(** What it means that rewards are shared among the members by their votes, and that nobody's reward is touched otherwise. *)
From Verif Require Import Base OMap Assets PollModel FundsModel MemberModel MemberSpec Msgs ControllerModel TreasuryModel EnterpriseModel
  WorldModel WorldSpec RewardSpec.

(** The two ways to hand something over for distribution: coins sent along by anybody, or an amount of a token, of which the
    contract of the token gives notice. *)
Inductive distribution (s : addr) : funds_msg -> list coin -> list (asset * N) -> Prop :=
| CoinsShared coins : distribution s FDistributeNative coins (map (fun c => (Native (fst c), snd c)) coins)
| TokensShared n coins : distribution s (FReceive n true) coins [(Cw20 s, n)].

(** The votes of all members who reach the minimum for rewards, and those of one of them. *)
Definition sharing_votes {X} (w : world X) : N :=
  lsum (fun uw => counted_weight (f_min (w_funds w)) (snd uw)) (elems (m_weights (members_of (w_member w)))).
Definition own_votes {X} (w : world X) (u : addr) : N := counted_weight (f_min (w_funds w)) (weight_of (w_member w) u).

(** What one vote has got of the asset [a] so far, in units of 10^-18. *)
Definition per_vote {X} (w : world X) (a : asset) : N :=
  match a with
  | Native d => ogetN (r_global (f_native (w_funds w))) d
  | Cw20 t => ogetN (r_global (f_cw20 (w_funds w))) t
  | Cw1155 _ _ => 0
  end.

(** The delivered message hands over [a] for distribution. *)
Definition brings (A : addrs) (a : asset) (x : addr * cosmos_msg) : Prop :=
  match snd x with
  | WasmExecute to (ToFunds FDistributeNative) coins => to = a_funds A /\ exists d n, a = Native d /\ In (d, n) coins
  | WasmExecute to (ToFunds (FReceive _ _)) _ => to = a_funds A /\ a = Cw20 (fst x)
  | _ => False
  end.
(** It is a claim of [u]'s rewards of [a]. *)
Definition takes (A : addrs) (u : addr) (a : asset) (x : addr * cosmos_msg) : Prop :=
  match snd x with
  | WasmExecute to (ToFunds (FClaim v ns cs)) _ => to = a_funds A /\ v = u /\ exists d, (a = Native d /\ In d ns) \/ (a = Cw20 d /\ In d cs)
  | _ => False
  end.
