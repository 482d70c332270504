(** Go and SDK data types used by the model: bytes, slices, machine integers,
    [math.Int], [math.LegacyDec], result types. *)
From stdpp Require Export gmap strings pretty sorting list.
From RecordUpdate Require Export RecordSet.
From Coq Require Export ZArith Lia.
From Coq Require Strings.Byte Strings.Ascii Strings.String.
Export RecordSetNotations.
Global Open Scope Z_scope.

(** * Bytes *)

Notation byte := Coq.Init.Byte.byte.
Notation bytes := (list byte).

Global Instance byte_eq_dec : EqDecision byte := Coq.Strings.Byte.byte_eq_dec.
Global Instance byte_countable : Countable byte.
Proof.
  refine (inj_countable' Coq.Strings.Byte.to_N
    (fun n => match Coq.Strings.Byte.of_N n with Some b => b | None => Coq.Init.Byte.x00 end) _).
  intros b; cbn. by rewrite Coq.Strings.Byte.of_to_N.
Defined.

(** Value of a byte (Go [byte] is an unsigned 8-bit integer). *)
Definition Z_of_byte (b : byte) : Z := Z.of_N (Coq.Strings.Byte.to_N b).
(** Go conversion [byte(x)]: truncation to the low 8 bits. *)
Definition byte_of_Z (z : Z) : byte :=
  match Coq.Strings.Byte.of_N (Z.to_N (z mod 256)) with
  | Some b => b | None => Coq.Init.Byte.x00 end.

(** encoding/binary [BigEndian.PutUintN] for an [n]-byte integer: the most
    significant byte first, the value truncated to [8*n] bits. *)
Fixpoint be_encode (n : nat) (z : Z) : bytes :=
  match n with
  | O => []
  | S k => byte_of_Z (z / 256 ^ Z.of_nat k) :: be_encode k z
  end.
(** encoding/binary [BigEndian.UintN] of all the bytes of its argument. *)
Definition be_decode (bs : bytes) : Z :=
  fold_left (fun acc b => acc * 256 + Z_of_byte b) bs 0.

(** ASCII bytes of a string (Go [[]byte(s)]). *)
Definition bytes_of_string (s : string) : bytes :=
  String.list_byte_of_string s.

(** * Machine integers *)

(** Go conversions [uint16(x)], [uint32(x)], [uint64(x)], [int64(x)]. *)
Definition wrap_u16 (z : Z) : Z := z mod 2 ^ 16.
Definition wrap_u32 (z : Z) : Z := z mod 2 ^ 32.
Definition wrap_u64 (z : Z) : Z := z mod 2 ^ 64.
Definition wrap_i64 (z : Z) : Z := (z + 2 ^ 63) mod 2 ^ 64 - 2 ^ 63.

(** * Slices

    A Go slice is a window of length [sl_len] on a backing array; [sl_buf] is
    the part of the array from the start of the window to the end of its
    capacity. The slice expression [s[a:b]] is bounded by the capacity, not by
    the length; [s[a:]] is [s[a:len(s)]]. Writes through slices do not occur in
    the modelled code. *)
Record slice := mk_slice { sl_buf : bytes; sl_len : Z }.

Definition sl_cap (s : slice) : Z := Z.of_nat (length (sl_buf s)).
(** The bytes visible through the slice. *)
Definition sl_bytes (s : slice) : bytes := take (Z.to_nat (sl_len s)) (sl_buf s).
(** A freshly allocated slice whose capacity is its length. *)
Definition sl_of (bs : bytes) : slice := mk_slice bs (Z.of_nat (length bs)).
(** The nil slice. *)
Definition sl_nil : slice := mk_slice [] 0.
(** [s[a:b]]; [None] is the run-time panic "slice bounds out of range". *)
Definition sl_sub (s : slice) (a b : Z) : option slice :=
  if (0 <=? a) && (a <=? b) && (b <=? sl_cap s)
  then Some (mk_slice (drop (Z.to_nat a) (sl_buf s)) (b - a))
  else None.
(** [s[a:]] *)
Definition sl_from (s : slice) (a : Z) : option slice := sl_sub s a (sl_len s).

(** * Results *)

(** Error classes distinguished by the model. *)
Inductive err :=
| EPaused | EDecreasingIndex | EInsufficientFunds | EToYield | EBlocked
| EOverflow | EAuthority | EDecode | EInvalidAmount | EInvalidVault
| EInvalidPauseType | EDuplicate | EInvalidPeer | EInvalidMessage
| EInvalidPath | EInvalidRecipient | ENoOwner | ENotOwner | ESameOwner
| EVaa | EWrongChain | EWrongToken | EExternal | ENoChannel | ENoToken
| ERouters | EDisabledChannel | ENotFound | EMalformed | EUnsigned.

(** Result of a pure Go function that may return an error or panic. *)
Inductive pres (A : Type) :=
| POk (a : A) | PErr (e : err) | PPanic.
Arguments POk {A} _. Arguments PErr {A} _. Arguments PPanic {A}.

Definition pbind {A B} (m : pres A) (f : A -> pres B) : pres B :=
  match m with POk a => f a | PErr e => PErr e | PPanic => PPanic end.
Notation "x <~ m ; k" := (pbind m (fun x => k)) (at level 60, m at next level, right associativity).
(** Slice operations panic when out of bounds. *)
Definition of_slice (o : option slice) : pres slice :=
  match o with Some s => POk s | None => PPanic end.

(** * cosmossdk.io/math v1.4.0 Int: signed, at most 256 bits, operations panic
    on overflow (the [Safe] variants return an error instead). *)
Definition int_fits (z : Z) : bool := Z.abs z <? 2 ^ 256.
Definition int_chk (z : Z) : pres Z := if int_fits z then POk z else PPanic.
Definition int_add (a b : Z) : pres Z := int_chk (a + b).
Definition int_sub (a b : Z) : pres Z := int_chk (a - b).
Definition int_mul (a b : Z) : pres Z := int_chk (a * b).
(** [Int.Quo]/[QuoRaw]: big.Int [Quo] truncates toward zero; panics on 0. *)
Definition int_quo (a b : Z) : pres Z := if b =? 0 then PPanic else POk (Z.quot a b).
Definition int_safe_add (a b : Z) : pres Z :=
  if int_fits (a + b) then POk (a + b) else PErr EOverflow.
Definition int_safe_sub (a b : Z) : pres Z :=
  if int_fits (a - b) then POk (a - b) else PErr EOverflow.

(** * cosmossdk.io/math LegacyDec: a Dec [d] is represented by [d * 10^18]. *)
Definition e12 : Z := 1000000000000.
Definition e18 : Z := 1000000000000000000.
Definition dec_fits (z : Z) : bool := Z.abs z <? 2 ^ 315.
(** [LegacyNewDec], [LegacyNewDecFromInt], [Int.ToLegacyDec]. *)
Definition dec_of_int (z : Z) : Z := z * e18.
(** [chopPrecisionAndRound]: divide by 10^18 rounding half to even. *)
Definition dec_chop_round (z : Z) : Z :=
  let a := Z.abs z in
  let q := a / e18 in
  let r := a mod e18 in
  let half := e18 / 2 in
  let q' := if r <? half then q
            else if half <? r then q + 1
            else if Z.even q then q else q + 1 in
  if z <? 0 then - q' else q'.
(** [LegacyDec.Quo]: multiply by 10^36, integer division, chop and round. *)
Definition dec_quo (a b : Z) : pres Z :=
  if b =? 0 then PPanic else
  let r := dec_chop_round (Z.quot (a * e18 * e18) b) in
  if dec_fits r then POk r else PPanic.
(** [LegacyDec.QuoInt] / [QuoInt64]: integer division of the representation. *)
Definition dec_quo_int (a i : Z) : pres Z :=
  if i =? 0 then PPanic else POk (Z.quot a i).
(** [LegacyDec.MulInt] *)
Definition dec_mul_int (a i : Z) : pres Z :=
  if dec_fits (a * i) then POk (a * i) else PPanic.
(** [LegacyDec.TruncateInt] *)
Definition dec_truncate (a : Z) : pres Z := int_chk (Z.quot a e18).

(** * Strings *)

(** strings.ToLower on ASCII strings. *)
Definition ascii_lower (a : Ascii.ascii) : Ascii.ascii :=
  let n := Ascii.N_of_ascii a in
  if ((65 <=? n) && (n <=? 90))%N then Ascii.ascii_of_N (n + 32) else a.
Fixpoint string_lower (s : string) : string :=
  match s with
  | EmptyString => EmptyString
  | String a s => String (ascii_lower a) (string_lower s)
  end.
Definition string_leb (a b : string) : bool := String.leb a b.
Definition string_le (a b : string) : Prop := string_leb a b = true.
Global Instance string_le_dec a b : Decision (string_le a b).
Proof. unfold string_le. apply _. Defined.

(** Orders used to iterate maps by ascending key. *)
Definition zkey_le {A} (x y : Z * A) : Prop := x.1 <= y.1.
Global Instance zkey_le_dec {A} (x y : Z * A) : Decision (zkey_le x y).
Proof. unfold zkey_le. apply _. Defined.
Definition skey_le {A} (x y : string * A) : Prop := string_le x.1 y.1.
Global Instance skey_le_dec {A} (x y : string * A) : Decision (skey_le x y).
Proof. unfold skey_le. apply _. Defined.
