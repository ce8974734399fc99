(** Examples of callables that move the stream (C102). *)
From Coq Require Import String Lia.
From Verif Require Import Samples.
From Verif Require Export SpecReaders.
Open Scope list_scope.
Open Scope Z_scope.

Definition at_position (k : nat) (s : stream) : stream := mkStream (s_data s) k.
Definition keep (s : stream) : stream := s.
Definition skip1 (s : stream) : stream := advance s (Nat.min 1 (length (rest s))).

(** A tag that the decider reads; a mark that [present] reads; a halt check that starts again. *)
Definition tag_moves : moves := Moves (fun _ _ _ => keep) (fun _ _ _ _ => keep) (fun _ _ _ => skip1).
Definition mark_moves : moves := Moves (fun c _ _ s => match c_name c with Some "y"%string => skip1 s | _ => s end) (fun _ _ _ _ => keep) (fun _ _ _ => keep).
Definition back_moves : moves := Moves (fun _ _ _ => keep) (fun _ _ _ _ => at_position 0) (fun _ _ _ => keep).
Definition tidy_moves : moves := Moves (fun _ _ _ => keep) (fun _ _ _ _ => keep) (fun _ _ _ => keep).

Lemma tidy_met : tidy tidy_moves.
Proof. split; [|split]; reflexivity. Qed.

Lemma skip1_ahead s : forward s (skip1 s).
Proof. unfold forward, skip1, advance, rest. cbn [s_data s_pos]. rewrite skipn_length. repeat split; lia. Qed.

Lemma tag_ahead : never_back tag_moves.
Proof. split; [|split]; intros; cbn; try (unfold forward, keep; repeat split; lia); apply skip1_ahead. Qed.

Lemma back_reads : only_read back_moves.
Proof. split; [|split]; reflexivity. Qed.

(** The number of the choice is the first byte. *)
Definition tagged : field := Field (basic "u" SNone)
  (KUnion [CField (u8 (byte "")); CField (Field (basic "" (SInt 2)) (KInt false Big))]
          (fun s _ _ => match rest s with b :: _ => Ok (Z.to_nat b) | [] => Raise EValueErr end) (fun _ _ _ => Ok 0%nat)).

Lemma tagged_loads : r_field_from_stream [] tag_moves 5 tagged VNone [] (mkStream [1; 2; 3; 4] 0) = (mkStream [1; 2; 3; 4] 3, Ok (VInt 515)).
Proof. vm_compute. reflexivity. Qed.

(** [y] is there unless the next byte is 0, which is read, too. *)
Definition marked : env := [class_of "M"
  [named "x" (u8 (byte "x"));
   named "y" (u8 (with_present (fun _ s => match s with Some s => match rest s with 0 :: _ => QRet false | _ => QRet true end | None => QRet true end) VNotPresent (byte "y")));
   named "z" (u8 (byte "z"))]].

Lemma marked_loads : r_struct_from_stream marked mark_moves 5 0 VNone [] (mkStream [7; 0; 9] 0)
  = (mkStream [7; 0; 9] 3, Ok [("x"%string, VInt 7); ("y"%string, VNotPresent); ("z"%string, VInt 9)]).
Proof. vm_compute. reflexivity. Qed.

(** What has been loaded cannot be loaded again after dumping it. *)
Lemma reader_round_refuted :
  ~ (forall E M n cid s s' vals out, only_read M -> r_struct_from_stream E M n cid VNone [] s = (s', Ok vals) ->
       struct_to_stream E n cid vals VNone = (out, Ok tt) ->
       exists s'', r_struct_from_stream E M n cid VNone [] (mkStream out 0) = (s'', Ok vals)).
Proof.
  intros H. destruct (H marked mark_moves 5%nat 0%nat (mkStream [7; 0; 9] 0) (mkStream [7; 0; 9] 3) [("x"%string, VInt 7); ("y"%string, VNotPresent); ("z"%string, VInt 9)] [7; 9]) as (s'' & Hs).
  - split; [|split]; intros; cbn; try reflexivity. destruct (c_name c) as [t|]; [|reflexivity]. repeat (match goal with |- context [match ?x with _ => _ end] => destruct x end; try reflexivity).
  - vm_compute. reflexivity.
  - vm_compute. reflexivity.
  - vm_compute in Hs. discriminate Hs.
Qed.

(** A halt check that looks at the start of the data and leaves the stream there. *)
Definition restart : haltfn := fun s vs _ _ => Ok (false, vs).
Definition endless : field := Field (basic "a" SNone) (KArray (u8 (byte "")) CntNone (Some restart)).

Lemma endless_step fuel n vs p : (p <= 2)%nat ->
  snd (r_array_load fuel (array_halt CntNone (Some restart) (Some "a"%string) VNone [])
        (halt_moves back_moves (Some restart) (basic "a" SNone) VNone [])
        (r_field_from_stream_with [] back_moves (r_do_load [] back_moves n) n (u8 (byte "")) VNone []) vs (mkStream [5; 6] p)) = OOF.
Proof.
  revert vs p. induction fuel as [|fuel IH]; intros vs p Hp; [reflexivity|]. cbn [r_array_load]. cbv zeta.
  cbn [array_halt restart halt_moves mv_halt back_moves at_position s_data].
  assert (Hl : r_field_from_stream_with [] back_moves (r_do_load [] back_moves n) n (u8 (byte "")) VNone [] (mkStream [5; 6] 0) = (mkStream [5; 6] 1, Ok (VInt 5))).
  { destruct n; vm_compute; reflexivity. }
  change (at_position 0 (mkStream [5; 6] p)) with (mkStream [5; 6] 0). rewrite Hl. apply IH. lia.
Qed.

Lemma endless_loads n : snd (r_field_from_stream [] back_moves n endless VNone [] (mkStream [5; 6] 0)) = OOF.
Proof.
  unfold r_field_from_stream, r_field_from_stream_with, r_from_stream_with. cbv zeta. cbn [conf endless basic c_present].
  change (run_dict [] _) with (@Ok bool true). cbv iota.
  change (mv_present back_moves _ VNone [] (mkStream [5; 6] 0)) with (mkStream [5; 6] 0).
  unfold from_stream_with. cbv zeta. change (run_dict [] _) with (@Ok bool true). cbv iota. change (allow_null _) with false. cbv iota.
  unfold lbind. destruct n as [|n]; [reflexivity|]. cbn [r_do_load kind endless].
  pose proof (endless_step n n [] 0%nat ltac:(lia)) as H.
  change (name_of endless) with (Some "a"%string). change (conf endless) with (basic "a" SNone).
  destruct (r_array_load n _ _ _ [] (mkStream [5; 6] 0)) as [s1 r]. cbn [snd] in H. rewrite H. reflexivity.
Qed.
