(** Who can make a proposal when, and what the proposal then is. *)
From Verif Require Import Base OMap Assets PollModel FundsModel MemberModel MemberSpec Msgs ControllerModel ControllerSpec TreasuryModel EnterpriseModel
  OutpostsModel WorldModel WorldSpec VoteSpec.

(** The ways of making a proposal: by a call with coins; by sending [amount] tokens of [token], which then calls the controller; as a member
    of the council. (With NFTs it is a call like the first, which makes the controller fetch the NFTs.) *)
Inductive way := WithCoins (owner : option N) (coins : list coin) | WithTokens (token amount : N) (owner : option N) | InCouncil (coins : list coin).

Definition kind_of (y : way) : proposal_type := match y with InCouncil _ => Council | _ => General end.
Definition coins_of (y : way) : list coin := match y with WithCoins _ l => l | WithTokens _ _ _ => [] | InCouncil l => l end.
Definition caller (y : way) (u : addr) : addr := match y with WithTokens t _ _ => t | _ => u end.
Definition proposing (A : addrs) (y : way) (u : addr) (actions : list proposal_action) : cosmos_msg :=
  WasmExecute (a_controller A)
    (ToController (match y with
                   | WithCoins owner _ => CCreateProposal actions owner
                   | WithTokens _ n owner => CReceive u n (Some (actions, owner))
                   | InCouncil _ => CCreateCouncilProposal actions
                   end)) (coins_of y).

(** What the membership contract takes as stakes. *)
Definition stakes_denom {X} (w : world X) (dn : N) : Prop := exists s, w_member w = MDenom s /\ st_asset s = Native dn.
Definition stakes_token {X} (w : world X) (t : N) : Prop := exists s, w_member w = MToken s /\ st_asset s = Cw20 t.

(** The deposit that comes with a proposal: in a DAO of native coins the first coin of that denomination, in a DAO of tokens the tokens sent. *)
Definition owned_by (owner : option N) (u : addr) : addr := match owner with Some a => a | None => u end.
Inductive brings {X} (w : world X) (u : addr) : way -> option deposit -> Prop :=
| br_unasked owner coins : en_type (w_enterprise w) <> DaoDenom -> brings w u (WithCoins owner coins) None
| br_nothing owner coins dn : en_type (w_enterprise w) = DaoDenom -> stakes_denom w dn -> owner <> Some 0 -> ~ In dn (map fst coins) ->
    brings w u (WithCoins owner coins) None
| br_coin owner before n after dn : en_type (w_enterprise w) = DaoDenom -> stakes_denom w dn -> owner <> Some 0 -> ~ In dn (map fst before) ->
    brings w u (WithCoins owner (before ++ (dn, n) :: after)) (Some (mk_deposit (owned_by owner u) (DDenom dn n)))
| br_tokens owner t n : en_type (w_enterprise w) = DaoToken -> stakes_token w t -> owner <> Some 0 ->
    brings w u (WithTokens t n owner) (Some (mk_deposit (owned_by owner u) (DCw20 t n)))
| br_council coins : brings w u (InCouncil coins) None.

Definition worth (d : option deposit) : N :=
  match d with
  | None => 0
  | Some d => match dp_asset d with DDenom _ n => n | DCw20 _ n => n | DCw721 _ l => N.of_nat (length l) end
  end.

(** The nanoseconds a vote lasts, as the program computes them: the product is cut to 64 bits. *)
Definition span {X} (w : world X) : N := gc_vote_duration (ct_config (w_ctl w)) * 10 ^ 9 mod 2 ^ 64.

(** [u] can propose [actions] in way [y] at [now]. *)
Definition can_propose {X} (Out : outside X) (A : addrs) (w : world X) (y : way) (now : N) (u : addr) (actions : list proposal_action) : Prop :=
  restricted_by Out A w (a_enterprise A) u = Ok false /\
  (length actions <= 10)%nat /\
  Forall (well_formed (en_type (w_enterprise w)) (en_version (w_enterprise w)) (ct_config (w_ctl w))) actions /\
  0 < span w /\ now + span w < 2 ^ 64 /\
  (exists d, brings w u y d /\
     (kind_of y = General -> match gc_minimum_deposit (ct_config (w_ctl w)) with None => vote_weight w General u <> 0 | Some r => r <= worth d end)) /\
  (kind_of y = Council -> exists c, ct_council (w_ctl w) = Some c /\ vote_weight w Council u <> 0 /\
     Forall (fun a => In (action_type_of a) (cc_allowed c)) actions).

(** From [w] to [w'] the proposal has been made, paid for by [x], and nothing else has happened. *)
Record proposed {X} (A : addrs) (y : way) (w : world X) (x : X) (w' : world X) (now : N) (u : addr) (actions : list proposal_action) : Prop := mk_proposed {
  pp_poll : oget (g_polls (w_gov w')) (g_count (w_gov w) + 1) =
    Some (mk_poll (g_count (w_gov w) + 1) u 0 (InProgress (now + span w)) now (now + span w)
      (match kind_of y, ct_council (w_ctl w) with Council, Some c => cc_quorum c | _, _ => gc_quorum (ct_config (w_ctl w)) end)
      (match kind_of y, ct_council (w_ctl w) with Council, Some c => cc_threshold c | _, _ => gc_threshold (ct_config (w_ctl w)) end)
      (gc_veto_threshold (ct_config (w_ctl w))) oempty);
  pp_polls : forall i, i <> g_count (w_gov w) + 1 -> oget (g_polls (w_gov w')) i = oget (g_polls (w_gov w)) i;
  pp_gov : g_admin (w_gov w') = g_admin (w_gov w) /\ g_count (w_gov w') = g_count (w_gov w) + 1 /\ g_votes (w_gov w') = g_votes (w_gov w);
  pp_info : exists d, brings (set_ext w x) u y d /\
    oget (ct_proposals (w_ctl w')) (g_count (w_gov w) + 1) = Some (mk_info (kind_of y) None None d actions);
  pp_proposals : forall i, i <> g_count (w_gov w) + 1 -> oget (ct_proposals (w_ctl w')) i = oget (ct_proposals (w_ctl w)) i;
  pp_ctl : ct_enterprise (w_ctl w') = ct_enterprise (w_ctl w) /\ ct_config (w_ctl w') = ct_config (w_ctl w) /\ ct_council (w_ctl w') = ct_council (w_ctl w) /\
    ct_creation (w_ctl w') = ct_creation (w_ctl w) /\ ct_treasuries (w_ctl w') = ct_treasuries (w_ctl w) /\ ct_creating (w_ctl w') = None /\
    ct_executing (w_ctl w') = ct_executing (w_ctl w) /\ ct_voting (w_ctl w') = ct_voting (w_ctl w);
  pp_rest : w_enterprise w' = w_enterprise w /\ w_member w' = w_member w /\ w_council w' = w_council w /\ w_funds w' = w_funds w /\
    w_treasury w' = w_treasury w /\ w_outposts w' = w_outposts w /\ w_upgraded w' = w_upgraded w /\ w_ext w' = x;
  pp_log : exists m, w_log w' = (a_controller A, WasmExecute (a_governance A) (ToGovernance m) []) :: (caller y u, proposing A y u actions) :: w_log w
}.

(** Votes would end the moment they begin, and all proposals are done. *)
Definition dead {X} (w : world X) : Prop :=
  span w = 0 /\ forall id p, oget (ct_proposals (w_ctl w)) id = Some p -> pi_executed_at p <> None.
(** No proposal has been added, and the rules are the same. *)
Definition halted {X} (w w' : world X) : Prop :=
  ct_config (w_ctl w') = ct_config (w_ctl w) /\ g_count (w_gov w') = g_count (w_gov w) /\
  forall id, oget (ct_proposals (w_ctl w')) id = None <-> oget (ct_proposals (w_ctl w)) id = None.
