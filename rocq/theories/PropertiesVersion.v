(** Properties C90: version numbers.  Vocabulary ([spells], [numbers], [numeric], [ending], [proper],
    [written]) in SpecVersion.v. *)
From Verif Require Import Tac VersionProofs.
Open Scope Z_scope.

(** C90: exactly the texts of the given form are parsed, with the numbers they spell ... *)
Theorem C90_parsed : forall s v, version_of_string s = Ok v <-> spells s v.
Proof. exact version_parsed. Qed.
Print Assumptions C90_parsed.

(** ... and all others raise ValueError. *)
Theorem C90_refused : forall s e, version_of_string s = Raise e <-> e = EValueErr /\ ~ exists v, spells s v.
Proof. exact version_refused. Qed.
Print Assumptions C90_refused.

(** The text of a version. *)
Theorem C90_written : forall v, proper v -> written v (version_text v).
Proof. exact version_written. Qed.
Print Assumptions C90_written.

(** What is written is read back, so different versions have different texts. *)
Theorem C90_round_trip : forall v, proper v -> version_of_string (version_text v) = Ok v.
Proof. exact version_round. Qed.
Print Assumptions C90_round_trip.

Theorem C90_one_text : forall v w, proper v -> proper w -> version_text v = version_text w -> v = w.
Proof. exact version_text_one. Qed.
Print Assumptions C90_one_text.

(** Whatever was parsed has no negative number or empty suffix, and its own text parses to it. *)
Theorem C90_parsed_proper : forall s v, version_of_string s = Ok v -> proper v.
Proof. exact parsed_proper. Qed.
Print Assumptions C90_parsed_proper.

Theorem C90_normal : forall s v, version_of_string s = Ok v -> version_of_string (version_text v) = Ok v.
Proof. exact version_normal. Qed.
Print Assumptions C90_normal.

Example C90_example :
  (* "1.2.3-rc1" *)
  version_of_string [49;46;50;46;51;45;114;99;49] = Ok (mkVersion 1 2 3 (Some [114;99;49]))
  (* "10.0" and " +1_0.0.0-" *)
  /\ version_of_string [49;48;46;48] = Ok (mkVersion 10 0 0 None)
  /\ version_of_string [32;43;49;95;48;46;48;46;48;45] = Ok (mkVersion 10 0 0 None)
  /\ version_text (mkVersion 10 0 0 None) = [49;48;46;48;46;48]
  (* "1" and "1.-2" *)
  /\ version_of_string [49] = Raise EValueErr
  /\ version_of_string [49;46;45;50] = Raise EValueErr
  /\ proper (mkVersion 1 2 3 (Some [114;99;49])).
Proof. repeat split; try reflexivity; cbn; try lia; discriminate. Qed.

(** The versions that Python packages carry (PEP 440) are not all read: a pre-release like
    "0.12.0rc1" raises ValueError, which would make importing the package fail, and "0.12.0.dev1" or
    "0.12.0.post1" are taken for "0.12.0". *)
Theorem C90_pep440_refuted :
  version_of_string [48;46;49;50;46;48;114;99;49] = Raise EValueErr
  /\ version_of_string [48;46;49;50;46;48;46;100;101;118;49] = version_of_string [48;46;49;50;46;48]
  /\ version_of_string [48;46;49;50;46;48;46;112;111;115;116;49] = version_of_string [48;46;49;50;46;48]
  /\ version_of_string [48;46;49;50;46;48] = Ok (mkVersion 0 12 0 None).
Proof. repeat split. Qed.
Print Assumptions C90_pep440_refuted.
