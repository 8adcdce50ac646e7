(** * DFloat16: the 16-bit decimal float the config values are stored in.
    Models common/src/d_float.rs. *)
From Verif Require Import Base.

(** A DFloat16 is its u16 bit pattern (d_float.rs:6-7). *)
Definition dfloat := Z.

(** d_float.rs:24-34 [DFloat16::new]. [exp + 15] and [sig + 1023] are computed in
    i16 and cast to u16, so a negative sum becomes a number >= 32768 and the
    assertions fail; [(exp << 11) | sig] with [sig < 2048] is [exp * 2048 + sig]. *)
Definition dfloat_new (exp sig : Z) : res dfloat :=
  let e := exp + 15 in
  let s := sig + 1023 in
  _ ← guard_ ((0 <=? e) && (e <? 32)) EInvalidConfig;
  _ ← guard_ ((0 <=? s) && (s <? 2048)) EInvalidConfig;
  Ok (e * 2048 + s).

(** d_float.rs:37-41 [Into<Decimal>]. [& 2047] and [>> 11] on the bit pattern. *)
Definition dfloat_to (f : dfloat) : Z := (f mod 2048 - 1023) * 10 ^ (f / 2048).

(** d_float.rs:43-63 [From<Decimal>]. [I192::BITS - leading_zeros] is the bit
    length of the absolute value; [.to_i16().unwrap()] panics out of i16 range;
    [sig /= 10] truncates toward zero. *)
Definition bit_len (x : Z) : Z := if x =? 0 then 0 else Z.log2 (Z.abs x) + 1.
Definition dfloat_pos10 (v : Z) : Z := Z.max (bit_len v * 30103 / 100000) 3.
Definition dfloat_from (v : Z) : res dfloat :=
  if v =? 0 then dfloat_new 0 0
  else
    let pos_10 := dfloat_pos10 v in
    let divisor := 10 ^ (pos_10 - 3) in
    let exp := pos_10 - 18 in
    let sig := Z.quot v divisor in
    _ ← guard_ ((-32768 <=? sig) && (sig <=? 32767)) EArithmetic;
    if (1024 <? sig) || (sig <? -1023)
    then dfloat_new (exp + 1) (Z.quot sig 10)
    else dfloat_new exp sig.

(** What a config value reads back as after being stored. *)
Definition dfloat_round (v : Z) : res Z := f ← dfloat_from v; Ok (dfloat_to f).
