(** Result type, integer widths and checked arithmetic shared by the model. *)
From Coq Require Export ZArith List Bool String.
Export ListNotations.
Open Scope Z_scope.

(** /repo/contracts/oraiswap-v3/src/error.rs:7-202 [ContractError].
    [StdErr] stands for every wrapped [StdError] (missing storage item, invalid address,
    deserialization failure).  [OutOfGas] has no counterpart in the enum: it is the
    abort of a transaction whose swap loop runs longer than its gas allows. *)
Inductive err : Set :=
| StdErr | FromUtf8
| InvalidTickSpacing | InvalidFee | InvalidTickIndex | TokensAreSame
| InvalidInitSqrtPrice | InvalidOffset | InvalidFunds
| EMul | EDiv | ECast | EAdd | ESub
| UpdateLiquidityPlusOverflow | UpdateLiquidityMinusOverflow
| EmptyPositionPokes | PositionNotFound
| PositionAddLiquidityOverflow | PositionRemoveLiquidityUnderflow
| PriceLimitReached | InsufficientLiquidity | TimestampSubOverflow
| PoolNotFound | PoolAddTickLiquidityOverflow | PoolSubTickLiquidityUnderflow
| TickLimitReached | TickNotFound | TickAlreadyExist
| TickAddLiquidityOverflow | TickRemoveLiquidityUnderflow | InvalidTickLiquidity
| InvalidSize | SqrtPriceOutOfRange | U320ToU256 | TickOverBounds
| ParseFromScale | CheckedDiv | ParseScale | ExtendLiquidityOverflow
| BigLiquidityOverflow | UpperTickNotGreater | TickReInitialize
| Unauthorized | Expired | AmountIsZero | WrongLimit | NoGainSwap
| AmountUnderMinimumAmountOut | PoolAlreadyExist | CreatePoolError
| FeeTierNotFound | NotEmptyTickDeinitialization
| UpperSqrtPriceLess | OverflowInCalculatingLiquidity | CurrentSqrtPriceLess
| OverflowCastingTokenAmount | TickLowerGreater
| OutOfGas.

(** A Rust call returns normally, returns an error, or panics (the contract is built with
    overflow-checks = true and panic = abort, /repo/Cargo.toml [profile.release]).
    Both [Err] and [Panic] abort the transaction. *)
Inductive res (A : Type) : Type :=
| Ok (a : A)
| Err (e : err)
| Panic.
Arguments Ok {A} a.
Arguments Err {A} e.
Arguments Panic {A}.

Definition bind {A B} (m : res A) (f : A -> res B) : res B :=
  match m with Ok a => f a | Err e => Err e | Panic => Panic end.

Notation "'let*' x := m 'in' f" := (bind m (fun x => f))
  (at level 200, x name, m at level 100, f at level 200, right associativity).
Notation "'let*' ' p := m 'in' f" := (bind m (fun x => match x with p => f end))
  (at level 200, p strict pattern, m at level 100, f at level 200, right associativity).

Definition is_ok {A} (m : res A) : bool := match m with Ok _ => true | _ => false end.

(** [Result::map_err(|_| e)]; a panic is not caught. *)
Definition map_err {A} (e : err) (m : res A) : res A :=
  match m with Err _ => Err e | r => r end.

(** [.unwrap()] on a Rust [Result]. *)
Definition unwrap {A} (m : res A) : res A := match m with Err _ => Panic | r => r end.

Definition U32MAX : Z := 4294967295.
Definition U64MAX : Z := 18446744073709551615.
Definition U128MAX : Z := 340282366920938463463374607431768211455.
Definition U128 : Z := 340282366920938463463374607431768211456.
Definition U256MAX : Z := 2 ^ 256 - 1.
Definition U320MAX : Z := 2 ^ 320 - 1.
Definition I32MIN : Z := -2147483648.
Definition I32MAX : Z := 2147483647.

Definition in_range (lo hi v : Z) : bool := (lo <=? v) && (v <=? hi).

(** checked conversion or operation whose failure is an error / a panic *)
Definition ck (e : err) (hi v : Z) : res Z := if in_range 0 hi v then Ok v else Err e.
Definition ckp (hi v : Z) : res Z := if in_range 0 hi v then Ok v else Panic.

(** [checked_div]: [None] on a zero divisor. *)
Definition cdiv (e : err) (n d : Z) : res Z := if d =? 0 then Err e else Ok (n / d).
