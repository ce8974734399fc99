(** Witnesses used by PropertiesZone.v: the clocks of New York in 2026. *)
From Coq Require Import String ZArith List Lia Bool.
From Verif Require Import Samples.
From Verif Require Export ZoneProofs.
Import ListNotations.
Open Scope string_scope.
Open Scope list_scope.
Open Scope Z_scope.

(** Forward on 2026-03-08 at 07:00 UTC, back on 2026-11-01 at 06:00 UTC. *)
Definition spring : Z := 1772953200.
Definition autumn : Z := 1793512800.
Definition new_york (u : Z) : Z :=
  if u <? spring then -18000 else if u <? autumn then -14400 else -18000.

Lemma new_york_regular x : regular new_york x.
Proof.
  unfold regular. destruct (Z.ltb_spec x (spring + 8640000)).
  - exists spring, (-18000), (-14400). constructor; try (unfold day; lia).
    intros u Hu. unfold new_york, spring, autumn, day in *. split_ifs; lia.
  - exists autumn, (-14400), (-18000). constructor; try (unfold day; lia).
    intros u Hu. unfold new_york, spring, autumn, day in *. split_ifs; lia.
Qed.

(** 2026-11-01T01:30:00, shown twice, and 2026-03-08T02:30:00, never shown. *)
Definition twice : Z := 1793496600.
Definition never : Z := 1772937000.

Lemma new_york_cases u : u < 1772953200 /\ new_york u = -18000
  \/ 1772953200 <= u < 1793512800 /\ new_york u = -14400 \/ 1793512800 <= u /\ new_york u = -18000.
Proof. unfold new_york, spring, autumn. split_ifs; lia. Qed.

Lemma twice_stands : stands_for new_york twice false 1793511000
  /\ stands_for new_york twice true 1793514600.
Proof.
  assert (Ht : twice = 1793496600) by reflexivity. assert (Hd : day = 86400) by reflexivity.
  assert (H1 := new_york_cases 1793511000). assert (H2 := new_york_cases 1793514600).
  unfold stands_for, shows. rewrite Ht, Hd.
  split; (split; [lia|]; split; [lia|]); intros u' Hu' Hs; pose proof (new_york_cases u'); lia.
Qed.
Lemma never_shown u : ~ shows new_york u never.
Proof.
  assert (Ht : never = 1772937000) by reflexivity. unfold shows. rewrite Ht.
  pose proof (new_york_cases u). lia.
Qed.

Definition stamp_conf : fconf := basic "t" (SInt 4).
Lemma twice_dumped :
  naive_dump new_york stamp_conf ResS true Big (Ok 4) (twice * 1000000, false) = ([106; 230; 206; 88], Ok tt)
  /\ naive_dump new_york stamp_conf ResS true Big (Ok 4) (twice * 1000000, true) = ([106; 230; 220; 104], Ok tt)
  /\ naive_load new_york ResS true Big (Ok 4) (at_data [] [106; 230; 206; 88] []) = (after_data [] [106; 230; 206; 88] [], Ok (twice * 1000000, false))
  /\ naive_load new_york ResS true Big (Ok 4) (at_data [] [106; 230; 220; 104] []) = (after_data [] [106; 230; 220; 104] [], Ok (twice * 1000000, true)).
Proof. repeat split; vm_compute; reflexivity. Qed.

Lemma never_dumped :
  exists bs, naive_dump new_york stamp_conf ResS true Big (Ok 4) (never * 1000000, false) = (bs, Ok tt)
  /\ naive_load new_york ResS true Big (Ok 4) (at_data [] bs []) = (after_data [] bs [], Ok ((never + 3600) * 1000000, false)).
Proof. exists [105; 173; 37; 120]. split; vm_compute; reflexivity. Qed.

Lemma moved_dumped :
  exists bs, naive_dump new_york stamp_conf ResS true Big (Ok 4) (0, false) = (bs, Ok tt)
  /\ naive_load (fun _ => 0) ResS true Big (Ok 4) (at_data [] bs []) = (after_data [] bs [], Ok (18000000000, false)).
Proof. exists [0; 0; 70; 80]. split; vm_compute; reflexivity. Qed.

Lemma fixed_regular d x : - day < d < day -> regular (fun _ => d) x.
Proof. intros Hd. exists 0, d, d. constructor; auto; [|lia]. intros u _. split_ifs; reflexivity. Qed.
