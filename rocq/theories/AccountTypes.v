(** * Account records of the programs, over an arbitrary type [K] of 32-byte keys.

    [K] is [bytes] in the storage model (Accounts.v) and a symbolic address in the execution model (Chain.v). *)
From Verif Require Export Base Bitmap RateLimit Trimmed Wire.
Local Open Scope Z_scope.

(** programs/example-native-token-transfers/src/config.rs:27-58 *)
Record config (K : Type) := Config {
  cf_bump : Z; cf_owner : K; cf_pending : option K; cf_mint : K; cf_token_program : K; cf_mode : mode;
  cf_chain : Z; cf_next : Z; cf_threshold : Z; cf_enabled : Z; cf_paused : bool; cf_custody : K }.
Arguments Config {K}. Arguments cf_bump {K}. Arguments cf_owner {K}. Arguments cf_pending {K}. Arguments cf_mint {K}.
Arguments cf_token_program {K}. Arguments cf_mode {K}. Arguments cf_chain {K}. Arguments cf_next {K}.
Arguments cf_threshold {K}. Arguments cf_enabled {K}. Arguments cf_paused {K}. Arguments cf_custody {K}.

(** peer.rs:3-10 *)
Record peer (K : Type) := Peer { pe_bump : Z; pe_address : K; pe_decimals : Z }.
Arguments Peer {K}. Arguments pe_bump {K}. Arguments pe_address {K}. Arguments pe_decimals {K}.

(** queue/outbox.rs:10-21 *)
Record outbox_item (K : Type) := OutboxItem {
  ob_amount : trimmed; ob_sender : K; ob_chain : Z; ob_manager : K; ob_recipient : K; ob_release : Z; ob_released : Z }.
Arguments OutboxItem {K}. Arguments ob_amount {K}. Arguments ob_sender {K}. Arguments ob_chain {K}.
Arguments ob_manager {K}. Arguments ob_recipient {K}. Arguments ob_release {K}. Arguments ob_released {K}.

(** queue/inbox.rs:27-32 *)
Inductive release_status := NotApproved | ReleaseAfter (t : Z) | Released.

(** queue/inbox.rs:9-21 *)
Record inbox_item (K : Type) := InboxItem {
  ib_init : bool; ib_bump : Z; ib_amount : Z; ib_recipient : K; ib_votes : Z; ib_status : release_status }.
Arguments InboxItem {K}. Arguments ib_init {K}. Arguments ib_bump {K}. Arguments ib_amount {K}.
Arguments ib_recipient {K}. Arguments ib_votes {K}. Arguments ib_status {K}.

(** registered_transceiver.rs:3-9 *)
Record registered (K : Type) := Registered { rt_bump : Z; rt_id : Z; rt_address : K }.
Arguments Registered {K}. Arguments rt_bump {K}. Arguments rt_id {K}. Arguments rt_address {K}.

(** transceivers/accounts/peer.rs:3-9 and programs/ntt-transceiver/src/peer.rs:3-9 *)
Record xpeer (K : Type) := XPeer { xp_bump : Z; xp_address : K }.
Arguments XPeer {K}. Arguments xp_bump {K}. Arguments xp_address {K}.

(** instructions/luts.rs:31-36 *)
Record lut (K : Type) := Lut { lu_bump : Z; lu_address : K }.
Arguments Lut {K}. Arguments lu_bump {K}. Arguments lu_address {K}.

(** programs/ntt-quoter/src/state.rs:3-13 *)
Record instance (K : Type) := Instance { in_owner : K; in_assistant : K; in_fee_recipient : K; in_sol_price : Z }.
Arguments Instance {K}. Arguments in_owner {K}. Arguments in_assistant {K}. Arguments in_fee_recipient {K}. Arguments in_sol_price {K}.

(** programs/ntt-quoter/src/state.rs:23-31 *)
Record reg_chain := RegChain { rc_bump : Z; rc_max_dropoff : Z; rc_base_price : Z; rc_native_price : Z; rc_gas_price : Z }.
(** programs/ntt-quoter/src/state.rs:37-43 *)
Record reg_ntt := RegNtt { rn_bump : Z; rn_index : Z; rn_gas_cost : Z }.
(** programs/ntt-quoter/src/state.rs:49-53 *)
Record relay_request := RelayRequest { rr_dropoff : Z }.
