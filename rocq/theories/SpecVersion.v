(** Specification vocabulary for version numbers (C90): the texts that spell one. *)
From Verif Require Export Version Decimal UuidText.
Open Scope Z_scope.

(** Decimal digits, with single underscores between some of them. *)
Inductive dec_text : list Z -> list Z -> Prop :=
| dx_one d : 0 <= d < 10 -> dec_text [d] [48 + d]
| dx_more d ds t : 0 <= d < 10 -> dec_text ds t -> dec_text (d :: ds) (48 + d :: t)
| dx_under d ds t : 0 <= d < 10 -> dec_text ds t -> dec_text (d :: ds) (48 + d :: 95 :: t).

(** One number of a version as Python reads it: blanks around it, perhaps a plus sign. *)
Inductive numeric : Z -> list Z -> Prop :=
| numeric_piece sp1 sg ds t sp2 : blank sp1 -> blank sp2 -> In sg [[]; [43]] -> dec_text ds t ->
    numeric (digits_value ds) (sp1 ++ (sg ++ t) ++ sp2).

(** "major.minor" or "major.minor.patch", anything behind a further dot being ignored; then
    perhaps a minus sign and a suffix. *)
Inductive numbers : Z -> Z -> Z -> list Z -> Prop :=
| numbers_two a b ta tb : numeric a ta -> numeric b tb -> numbers a b 0 (ta ++ 46 :: tb)
| numbers_three a b c ta tb tc : numeric a ta -> numeric b tb -> numeric c tc ->
    numbers a b c (ta ++ 46 :: tb ++ 46 :: tc)
| numbers_more a b c ta tb tc rest : numeric a ta -> numeric b tb -> numeric c tc -> ~ In 45 rest ->
    numbers a b c (ta ++ 46 :: tb ++ 46 :: tc ++ 46 :: rest).

Inductive ending : option (list Z) -> list Z -> Prop :=
| ending_none : ending None []
| ending_empty : ending None [45]
| ending_suffix s : s <> [] -> ending (Some s) (45 :: s).

Definition spells (s : list Z) (v : version) : Prop := exists base e,
  s = base ++ e /\ numbers (major v) (minor v) (patch v) base /\ ending (suffix v) e.

(** The versions that can be written: no negative number, no empty suffix. *)
Definition proper (v : version) : Prop :=
  0 <= major v /\ 0 <= minor v /\ 0 <= patch v /\ suffix v <> Some [].

(** The text of a proper version. *)
Definition written (v : version) (t : list Z) : Prop := exists a b c e,
  decimal (major v) a /\ decimal (minor v) b /\ decimal (patch v) c /\ ending (suffix v) e /\ e <> [45]
  /\ t = a ++ 46 :: b ++ 46 :: c ++ e.
