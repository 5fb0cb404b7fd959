(** Model of the parts of [f64], [std::time::Duration] and [rand::Rng::gen_bool] used by the crate,
    and of src/core/sphinx/delay.rs.

    [f64] is the standard library's [spec_float] with binary64 parameters (round to nearest, ties to
    even); a [Duration] is a number of nanoseconds; an [Instant] is a number of nanoseconds since an
    arbitrary origin, additions to it do not overflow (simplification). *)
From Coq Require Export SpecFloat.
From Verif Require Export Base.
Local Open Scope N_scope.

Definition f64 := spec_float.
Definition f_prec : Z := 53%Z.
Definition f_emax : Z := 1024%Z.
Definition f_add : f64 -> f64 -> f64 := SFadd f_prec f_emax.
Definition f_sub : f64 -> f64 -> f64 := SFsub f_prec f_emax.
Definition f_mul : f64 -> f64 -> f64 := SFmul f_prec f_emax.
Definition f_div : f64 -> f64 -> f64 := SFdiv f_prec f_emax.
Definition f_sqrt : f64 -> f64 := SFsqrt f_prec f_emax.
(** integer [as f64] *)
Definition f_of_N (n : N) : f64 := binary_normalize f_prec f_emax (Z.of_N n) 0 false.
(** a decimal literal [a / b], both exactly representable, so the quotient is correctly rounded *)
Definition f_lit (a b : N) : f64 := f_div (f_of_N a) (f_of_N b).
Definition f_zero : f64 := S754_zero false.
Definition f_one : f64 := f_of_N 1.
Definition f_two : f64 := f_of_N 2.
Definition f_ten : f64 := f_of_N 10.
(** [partial_cmp] *)
Definition f_cmp : f64 -> f64 -> option comparison := SFcompare.
Definition f_is_nan (x : f64) : bool := match x with S754_nan => true | _ => false end.
(** [f64::min]: if one argument is NaN the other is returned *)
Definition f_min (x y : f64) : f64 :=
  if f_is_nan x then y else if f_is_nan y then x
  else match f_cmp x y with Some Gt => y | _ => x end.

(** ** [Duration] *)
Notation duration := N (only parsing).
Definition NANOS_PER_SEC : N := 1000000000.
(** [Duration::MAX] is 2^64 - 1 seconds and 999999999 nanoseconds *)
Definition DURATION_LIMIT : N := 2 ^ 64 * NANOS_PER_SEC.

(** [Duration::as_secs_f64] *)
Definition as_secs_f64 (d : duration) : f64 :=
  f_add (f_of_N (d / NANOS_PER_SEC)) (f_div (f_of_N (d mod NANOS_PER_SEC)) (f_of_N NANOS_PER_SEC)).

(** [n * 2^e] rounded to the nearest integer, ties to even *)
Definition round_shift (n : N) (e : Z) : N :=
  if (0 <=? e)%Z then n * 2 ^ Z.to_N e
  else let d := 2 ^ Z.to_N (- e) in
       let q := n / d in
       let r := n mod d in
       match 2 * r ?= d with
       | Lt => q
       | Gt => q + 1
       | Eq => if N.even q then q else q + 1
       end.

(** [Duration::from_secs_f64]: rounds to the nearest nanosecond; panics if negative, too large, or
    not finite *)
Definition from_secs_f64 (x : f64) : outcome duration :=
  match x with
  | S754_zero _ => Val 0
  | S754_finite false m e =>
      let ns := round_shift (N.pos m * NANOS_PER_SEC) e in
      if ns <? DURATION_LIMIT then Val ns else Panic
  | _ => Panic
  end.

(** [Duration::mul_f64], [Duration::div_f64] *)
Definition mul_f64 (d : duration) (x : f64) : outcome duration :=
  from_secs_f64 (f_mul x (as_secs_f64 d)).
Definition div_f64 (d : duration) (x : f64) : outcome duration :=
  from_secs_f64 (f_div (as_secs_f64 d) x).

(** [Duration + Duration], [Duration * u32]: panic on overflow *)
Definition dur_add (a b : duration) : outcome duration :=
  if a + b <? DURATION_LIMIT then Val (a + b) else Panic.
Definition dur_mul (a : duration) (k : N) : outcome duration :=
  if a * k <? DURATION_LIMIT then Val (a * k) else Panic.

Notation instant := N (only parsing).

(** ** [Rng::gen_bool] (rand 0.8: [Bernoulli]): panics unless [0 <= p <= 1]; returns [true] for
    [p = 1] and otherwise compares a random [u64] with [p * 2^64] truncated. *)
Definition f_trunc_u64_scaled (p : f64) : N :=
  match p with
  | S754_finite false m e =>
      let e' := (e + 64)%Z in
      if (0 <=? e')%Z then N.pos m * 2 ^ Z.to_N e' else N.pos m / 2 ^ Z.to_N (- e')
  | _ => 0
  end.
Definition gen_bool (p : f64) (r : rng) : outcome (bool * rng) :=
  match f_cmp p f_one with
  | Some Eq => Val (true, r)
  | Some Lt =>
      match f_cmp f_zero p with
      | Some Gt => Panic
      | Some _ => let '(v, r') := rng_draw r in
                  Val (v mod 2 ^ 64 <? f_trunc_u64_scaled p, r')
      | None => Panic
      end
  | _ => Panic
  end.

(** ** delay.rs *)

(** delay.rs:32-33 *)
Definition DELAY_SEED_SIZE : nat := 16.

(** delay.rs:37: [struct Delay(f64)] *)
Definition delay := f64.
(** delay.rs:41-43 *)
Definition delay_zero : delay := f_zero.
(** delay.rs:47-59. [exp1] is the sample of [rand_distr::Exp1] obtained from a [ChaChaRng] seeded
    with the given 32 bytes (third party). *)
Definition delay_exp (exp1 : bytes -> f64) (seed : bytes) : delay :=
  f_min (exp1 (seed ++ seed)) f_ten.
(** delay.rs:63-65 *)
Definition delay_to_duration (d : delay) (unit : duration) : outcome duration := mul_f64 unit d.
(** delay.rs:71-76: [Ord::cmp], panics on NaN *)
Definition delay_cmp (a b : delay) : outcome comparison := expect (f_cmp a b).
(** delay.rs:78-90 *)
Definition delay_add (a b : delay) : delay := f_add a b.
(** [std::cmp::max] on [Delay]: the second argument unless the first is greater *)
Definition delay_max (a b : delay) : outcome delay :=
  c ← delay_cmp a b;
  Val (match c with Gt => a | _ => b end).
