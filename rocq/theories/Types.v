(** * Types: contract storage as records

    One record per contract storage; every field cites the storage key it
    stands for.  Absent persistent/temporary entries are absent map keys.  TTL
    bumps are not modelled. *)
From Verif Require Import Base.

(** ** Tokens (SEP-41 / Stellar asset contract, dependency) *)
Record Tok := mkTok {
  tk_bal : gmap (Addr * Addr) Z;                 (* (token, holder) -> balance *)
  tk_allow : gmap (Addr * Addr * Addr) (Z * Z)   (* (token, from, spender) -> (amount, live_until) *)
}.
#[export] Instance eta_Tok : Settable _ := settable! mkTok <tk_bal; tk_allow>.

(** ** Emitter: emitter/src/storage.rs 15-31 *)
(* emitter/src/backstop_manager.rs 6-12 *)
Record Swap := mkSwap { sw_backstop : Addr; sw_token : Addr; sw_unlock : Z }.
Record EmitterSt := mkEmitterSt {
  em_init : bool;               (* IsInit *)
  em_blnd : Addr;               (* BLNDTkn *)
  em_backstop : Addr;           (* Backstop *)
  em_token : Addr;              (* BToken *)
  em_last : gmap Addr Z;        (* LastDistro(backstop) *)
  em_swap : option Swap;        (* Swap *)
  em_dropped : gset Addr        (* Dropped(backstop) *)
}.
#[export] Instance eta_EmitterSt : Settable _ := settable! mkEmitterSt
  <em_init; em_blnd; em_backstop; em_token; em_last; em_swap; em_dropped>.

(** ** Backstop: backstop/src/storage.rs 20-76 *)
(* backstop/src/backstop/user.rs 9-22 *)
Record Q4W := mkQ4W { q_amount : Z; q_exp : Z }.
Record UserBal := mkUserBal { ub_shares : Z; ub_q4w : list Q4W }.
(* backstop/src/backstop/pool.rs 87-93 *)
Record PoolBal := mkPoolBal { pb_shares : Z; pb_tokens : Z; pb_q4w : Z }.
(* backstop/src/storage.rs 22-44; pool/src/storage.rs: the same three shapes *)
Record EmisConfig := mkEmisConfig { ec_exp : Z; ec_eps : Z }.
Record EmisData := mkEmisData { ed_index : Z; ed_last : Z }.
Record UserEmis := mkUserEmis { ue_index : Z; ue_accrued : Z }.
#[export] Instance eta_UserBal : Settable _ := settable! mkUserBal <ub_shares; ub_q4w>.
#[export] Instance eta_PoolBal : Settable _ := settable! mkPoolBal <pb_shares; pb_tokens; pb_q4w>.

Record BackstopSt := mkBackstopSt {
  bs_init : bool;                          (* IsInit *)
  bs_emitter : Addr;                       (* Emitter *)
  bs_token : Addr;                         (* BToken *)
  bs_factory : Addr;                       (* PoolFact *)
  bs_blnd : Addr;                          (* BLNDTkn *)
  bs_usdc : Addr;                          (* USDCTkn *)
  bs_last : Z;                             (* LastDist *)
  bs_rz : list Addr;                       (* RZ *)
  bs_drop : option (list (Addr * Z));      (* DropList (temporary) *)
  bs_lpval : option (Z * Z);               (* LPTknVal *)
  bs_user : gmap (Addr * Addr) UserBal;    (* UserBalance(pool,user) *)
  bs_pool : gmap Addr PoolBal;             (* PoolBalance(pool) *)
  bs_pemis : gmap Addr Z;                  (* PoolEmis(pool) *)
  bs_ecfg : gmap Addr EmisConfig;          (* BEmisCfg(pool) *)
  bs_edata : gmap Addr EmisData;           (* BEmisData(pool) *)
  bs_uemis : gmap (Addr * Addr) UserEmis   (* UEmisData(pool,user) *)
}.
#[export] Instance eta_BackstopSt : Settable _ := settable! mkBackstopSt
  <bs_init; bs_emitter; bs_token; bs_factory; bs_blnd; bs_usdc; bs_last; bs_rz; bs_drop;
   bs_lpval; bs_user; bs_pool; bs_pemis; bs_ecfg; bs_edata; bs_uemis>.

(** ** Pool factory: pool-factory/src/storage.rs 13-27 *)
(* PoolInitMeta without the wasm hash, which only names the pool code *)
Record FactorySt := mkFactorySt {
  fa_init : bool;               (* IsInit *)
  fa_backstop : Addr;           (* PoolMeta.backstop *)
  fa_blnd : Addr;               (* PoolMeta.blnd_id *)
  fa_deployed : gset Addr       (* Contracts(pool) *)
}.
#[export] Instance eta_FactorySt : Settable _ := settable! mkFactorySt
  <fa_init; fa_backstop; fa_blnd; fa_deployed>.

(** ** Oracle (SEP-40 price feed, dependency): any answers *)
Record Oracle := mkOracle {
  o_dec : gmap Addr Z;                     (* oracle -> decimals *)
  o_price : gmap (Addr * Addr) (Z * Z)     (* (oracle, asset) -> (price, timestamp) *)
}.

(** ** Observation log

    Ghost, append-only (newest first): what the contracts and tokens report
    through events, plus the per-pool amounts allocated by [gulp_emissions].  No
    contract function reads it. *)
Inductive Ev :=
| EvMint (tok to : Addr) (amt : Z)                   (* BLND minted by the emitter *)
| EvAlloc (pool : Addr) (to_pool to_depositors : Z)  (* gulp_emissions: allocation of one pool *)
| EvHandOver (pool : Addr) (amt : Z)                 (* gulp_pool_emissions *)
| EvBClaim (pool user : Addr) (amt : Z)              (* backstop claim, per pool *)
| EvBurn (pool asset : Addr) (d_tokens underlying : Z) (* bad debt burned *).

(** ** Everything outside the pools *)
Record Ext := mkExt {
  x_tok : Tok;
  x_em : EmitterSt;
  x_bs : BackstopSt;
  x_fac : FactorySt;
  x_orc : Oracle;
  x_lp_supply : Z;      (* Comet LP total supply (environment) *)
  x_log : list Ev
}.
#[export] Instance eta_Ext : Settable _ := settable! mkExt
  <x_tok; x_em; x_bs; x_fac; x_orc; x_lp_supply; x_log>.

Definition add_log (ev : Ev) (x : Ext) : Ext := x <| x_log := ev :: x_log x |>.

(** ** Pool: pool/src/storage.rs *)
(* pool/src/storage.rs PoolConfig *)
Record PoolConfig := mkPoolConfig {
  pc_oracle : Addr;
  pc_bstop_rate : Z;     (* 7 decimals, u32 *)
  pc_status : Z;         (* u32 *)
  pc_max_positions : Z   (* u32 *)
}.
#[export] Instance eta_PoolConfig : Settable _ := settable! mkPoolConfig
  <pc_oracle; pc_bstop_rate; pc_status; pc_max_positions>.

(* pool/src/storage.rs ReserveConfig *)
Record ResConfig := mkResConfig {
  rc_index : Z;
  rc_decimals : Z;
  rc_c_factor : Z;
  rc_l_factor : Z;
  rc_util : Z;
  rc_max_util : Z;
  rc_r_base : Z;
  rc_r_one : Z;
  rc_r_two : Z;
  rc_r_three : Z;
  rc_reactivity : Z
}.
#[export] Instance eta_ResConfig : Settable _ := settable! mkResConfig
  <rc_index; rc_decimals; rc_c_factor; rc_l_factor; rc_util; rc_max_util; rc_r_base; rc_r_one;
   rc_r_two; rc_r_three; rc_reactivity>.

(* pool/src/storage.rs QueuedReserveInit *)
Record QueuedRes := mkQueuedRes { qr_config : ResConfig; qr_unlock : Z }.

(* pool/src/storage.rs ReserveData *)
Record ResData := mkResData {
  rd_d_rate : Z;
  rd_b_rate : Z;
  rd_ir_mod : Z;
  rd_b_supply : Z;
  rd_d_supply : Z;
  rd_last_time : Z;
  rd_credit : Z          (* backstop_credit *)
}.
#[export] Instance eta_ResData : Settable _ := settable! mkResData
  <rd_d_rate; rd_b_rate; rd_ir_mod; rd_b_supply; rd_d_supply; rd_last_time; rd_credit>.

(* pool/src/pool/user.rs Positions: three maps reserve index -> amount *)
Record Positions := mkPositions {
  po_liab : gmap Z Z;
  po_coll : gmap Z Z;
  po_sup : gmap Z Z
}.
#[export] Instance eta_Positions : Settable _ := settable! mkPositions <po_liab; po_coll; po_sup>.
Definition no_positions : Positions := mkPositions ∅ ∅ ∅.

(* pool/src/auctions/auction.rs AuctionData *)
Record Auction := mkAuction {
  au_bid : gmap Addr Z;
  au_lot : gmap Addr Z;
  au_block : Z
}.

Record PoolSt := mkPoolSt {
  ps_init : bool;                            (* IsInit *)
  ps_admin : Addr;                           (* Admin *)
  ps_backstop : Addr;                        (* Backstop *)
  ps_blnd : Addr;                            (* BLNDTkn *)
  ps_config : PoolConfig;                    (* Config *)
  ps_list : list Addr;                       (* ResList *)
  ps_rcfg : gmap Addr ResConfig;             (* ResConfig(asset) *)
  ps_queue : gmap Addr QueuedRes;            (* ResInit(asset) (temporary) *)
  ps_rdata : gmap Addr ResData;              (* ResData(asset) *)
  ps_ecfg : gmap Z EmisConfig;               (* EmisConfig(res token id) *)
  ps_edata : gmap Z EmisData;                (* EmisData(res token id) *)
  ps_uemis : gmap (Addr * Z) UserEmis;       (* UserEmis(user, res token id) *)
  ps_pemis : gmap Z Z;                       (* PoolEmis: res token id -> share *)
  ps_pos : gmap Addr Positions;              (* Positions(user) *)
  ps_auct : gmap (Z * Addr) Auction          (* Auction(type, user) (temporary) *)
}.
#[export] Instance eta_PoolSt : Settable _ := settable! mkPoolSt
  <ps_init; ps_admin; ps_backstop; ps_blnd; ps_config; ps_list; ps_rcfg; ps_queue; ps_rdata;
   ps_ecfg; ps_edata; ps_uemis; ps_pemis; ps_pos; ps_auct>.

(** one pool together with the rest of the world *)
Record PX := mkPX { px_p : PoolSt; px_x : Ext }.
#[export] Instance eta_PX : Settable _ := settable! mkPX <px_p; px_x>.
