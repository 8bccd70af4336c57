(** The history of one contract within the history of a DAO. *)
From Verif Require Import Base OMap Assets PollModel FundsModel MemberModel Msgs ControllerModel TreasuryModel EnterpriseModel OutpostsModel WorldModel.

(** A delivered message as seen by the contract at [a]: sender, message, coins. *)
Definition seen_by (a : addr) (x : addr * cosmos_msg) : list (addr * wasm_msg * list coin) :=
  match snd x with
  | WasmExecute to m coins => if to =? a then [(fst x, m, coins)] else []
  | _ => []
  end.
(** All calls the contract at [a] has received, oldest first. *)
Definition received {X} (a : addr) (w : world X) : list (addr * wasm_msg * list coin) := flat_map (seen_by a) (rev (w_log w)).

(** Calls made during the transactions [ts], a list for each of them; the calls happen in the block of the transaction. *)
Definition during {C} (block : C -> env) (ts : list tx) (css : list (list C)) : Prop :=
  Forall2 (fun t cs => Forall (fun c => block c = tx_env t) cs) ts css.

Definition ignoring_coins (x : addr * wasm_msg * list coin) : addr * wasm_msg := fst x.

(** The calls among the events of the controller and of the enterprise contract (the others are replies). *)
Definition ctl_calls (c : ctl_call) : list (addr * wasm_msg * list coin) :=
  match cc_event c with CallCtl s coins m => [(s, ToController m, coins)] | ReplyCtl _ _ => [] end.
Definition en_calls (v : en_event) : list (addr * wasm_msg) :=
  match v with EvCall _ s m => [(s, ToEnterprise m)] | EvReply _ _ => [] end.
