(** Small, model-independent specification of the variable-length integer formats. *)
From Verif Require Import Varints.

(** All bytes but the last carry the continuation bit (128). *)
Definition terminated (bs : list Z) : Prop :=
  exists init last, bs = init ++ [last]
    /\ Forall (fun b => 128 <= b < 256) init /\ 0 <= last < 128.

(** Base-128 value of the low 7 bits of each byte, first byte most significant,
    continuing from [acc]. *)
Definition be7_from (acc : Z) (bs : list Z) : Z :=
  fold_left (fun a b => a * 128 + b mod 128) bs acc.

(** Base-128 value of the low 7 bits of each byte, first byte least significant. *)
Definition le7 (bs : list Z) : Z := fold_right (fun b a => b mod 128 + 128 * a) 0 bs.

(** The integer a terminated byte string stands for, per format:
    - VLQ: unsigned, most significant group first;
    - ULEB128: unsigned, least significant group first;
    - LEB128: two's complement in 7*length bits, least significant group first;
    - COMPACT: sign-magnitude, bit 6 of the first byte is the sign. *)
Definition spec_value (fmt : vli_format) (bs : list Z) : Z :=
  match fmt with
  | VLQ => be7_from 0 bs
  | ULEB128 => le7 bs
  | LEB128 => let n := 7 * Z.of_nat (length bs) in
              if le7 bs <? 2 ^ (n - 1) then le7 bs else le7 bs - 2 ^ n
  | COMPACT_INDICES =>
    match bs with
    | [] => 0
    | b :: bs' => (if b mod 128 <? 64 then 1 else -1) * be7_from (b mod 64) bs'
    end
  end.

(** Which integers a format can represent. *)
Definition encodable (fmt : vli_format) (v : Z) : Prop :=
  match fmt with VLQ | ULEB128 => 0 <= v | LEB128 | COMPACT_INDICES => True end.

(** A stream positioned right after [pre], with [bs ++ suf] still to be read. *)
Definition at_data (pre bs suf : list Z) : stream :=
  mkStream (pre ++ bs ++ suf) (length pre).
(** The same stream once [bs] has been consumed. *)
Definition after_data (pre bs suf : list Z) : stream :=
  mkStream (pre ++ bs ++ suf) (length pre + length bs).

(** Decode [n] integers one after another. *)
Fixpoint decode_many (fmt : vli_format) (n : nat) : loader (list Z) :=
  match n with
  | O => lret []
  | S n' => ldo v <- vli_decode fmt; ldo vs <- decode_many fmt n'; lret (v :: vs)
  end.
