(** What it means that the treasury spends what proposals ordered, independently of how the model computes. *)
From Verif Require Import Base OMap Assets FundsModel MemberModel Msgs ControllerModel ControllerSpec TreasuryModel EnterpriseModel
  OutpostsModel WorldModel WorldSpec.

(** One transfer of coins or tokens to [to]. *)
Definition transfer (to : addr) (x : asset * N) : list cosmos_msg :=
  match fst x with
  | Native d => [BankSend to [(d, snd x)]]
  | Cw20 t => [WasmExecute t (ToCw20 (Cw20Transfer to (snd x))) []]
  | Cw1155 _ _ => []
  end.

(** Handing funds to the distributor for the members: every token in a message of its own, all coins in one. *)
Definition handing (distributor : addr) (funds : list (asset * N)) : list cosmos_msg :=
  let coins := flat_map (fun x => match fst x with Native d => [(d, snd x)] | _ => [] end) funds in
  flat_map (fun x => match fst x with Cw20 t => [WasmExecute t (ToCw20 (Cw20Send distributor (snd x) HookDistribute)) []] | _ => [] end) funds
  ++ (if 0 <? N.of_nat (length coins) then [WasmExecute distributor (ToFunds FDistributeNative) coins] else []).

Definition given {T} (l : list (option T)) : list T := flat_map (fun o => match o with Some x => [x] | None => [] end) l.

(** What the treasury is to send when it is told [m]. *)
Definition told (m : treasury_msg) : list cosmos_msg :=
  match m with
  | TrSpend to assets => flat_map (transfer to) assets
  | TrDistribute funds distributor => handing distributor funds
  | TrExecute msgs => given msgs
  | _ => []
  end.

(** What an action of a proposal orders the DAO's own treasury to send. *)
Definition action_orders (A : addrs) (a : proposal_action) : list cosmos_msg :=
  match a with
  | PRequestFunding None to assets => flat_map (transfer to) assets
  | PDistributeFunds funds => handing (a_funds A) funds
  | PExecuteTreasuryMsgs msgs None => given msgs
  | PExecuteMsgs msgs =>
      flat_map (fun m => match m with
                         | WasmExecute to (ToTreasury tm) _ => if to =? a_treasury A then told tm else []
                         | _ => []
                         end) (given msgs)
  | _ => []
  end.
Definition orders (A : addrs) (p : proposal_info) : list cosmos_msg := flat_map (action_orders A) (pi_actions p).

(** The messages that [a] sent, as far as they were not rolled back. *)
Definition sent_by {X} (a : addr) (w : world X) : list cosmos_msg :=
  flat_map (fun x => if fst x =? a then [snd x] else []) (w_log w).

(** The proposals whose actions were run, once for every run that was not rolled back. *)
Definition runs {X} (A : addrs) (w : world X) : list N :=
  flat_map (fun x => match snd x with
                     | WasmExecute to (ToController (CExecuteActions i)) _ => if to =? a_controller A then [i] else []
                     | _ => []
                     end) (w_log w).

(** What the proposals that were run ordered the treasury to send. *)
Definition orders_of {X} (A : addrs) (w : world X) (id : N) : list cosmos_msg :=
  match oget (ct_proposals (w_ctl w)) id with Some p => orders A p | None => [] end.
Definition ordered {X} (A : addrs) (w : world X) : list cosmos_msg := flat_map (orders_of A w) (runs A w).

(** The treasury of a DAO that has just been created, administered by the controller. *)
Definition new_treasury {X} (A : addrs) (w : world X) : Prop :=
  exists assets nfts, treasury_instantiate (a_controller A) assets nfts = Ok (w_treasury w).

(** What [u] loses by a message of its own: [attached] for the coins sent along with a call, [taken] for the rest. *)
Definition price (attached : list coin -> N) (taken : cosmos_msg -> N) (m : cosmos_msg) : N :=
  match m with WasmExecute _ _ coins => attached coins + taken m | _ => taken m end.

(** The outside takes nothing from [u], whose balance is [bal], except when [u] itself sends a message, and then at most
    its price. *)
Record keeps_for {X} (Out : outside X) (u : addr) (attached : list coin -> N) (taken : cosmos_msg -> N) (bal : X -> N) : Prop := mk_keeps {
  kf_pay : forall x s to coins x', x_pay Out x s to coins = Ok x' -> bal x <= bal x' + (if s =? u then attached coins else 0);
  kf_exec : forall w e s to m coins x subs d, x_exec Out w e s to m coins = Ok (x, subs, d) ->
    bal (w_ext w) <= bal x + (if s =? u then taken (WasmExecute to m coins) else 0);
  kf_reply : forall w e self id r x subs, x_reply Out w e self id r = Ok (x, subs) -> bal (w_ext w) <= bal x;
  kf_msg : forall w e s m x d, x_msg Out w e s m = Ok (x, d) -> bal (w_ext w) <= bal x + (if s =? u then taken m else 0)
}.
