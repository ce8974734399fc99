(** Proofs about user-defined fields (C95). *)
From Coq Require Import Lia.
From Verif Require Import Tac StreamProofs VarintsMore FieldProofs StructProofs ArrayProofs RoundProofs.
From Verif Require Export SpecCustom.

Lemma object_data v : object v <-> is_data v = true.
Proof.
  unfold object. split; [intros (H1 & H2 & H3); destruct v; try reflexivity; congruence|].
  intros H. repeat split; intros ->; discriminate H.
Qed.

(** ** The library's own fields *)

Lemma builtin_size E n f d : plain_null f ->
  u_get_expected_size (builtin E n f) d = ges (do_dump E n) f d.
Proof.
  unfold plain_null. intros H. unfold u_get_expected_size, ges, get_expected_size_with, expected_unsized. cbn [u_conf builtin u_size_for].
  destruct (c_size (conf f)) as [|z|nm]; try reflexivity.
  destruct (match oget d (c_name (conf f)) with Some v => Ok v | None => _ end) as [v| |]; cbn [bind]; try reflexivity.
  destruct (is_none v); [|reflexivity]. unfold u_null_len, unsized_null_len. cbn [u_conf builtin u_dump].
  destruct H as [H|[H|H]]; [contradiction| |];
    destruct (c_null (conf f)); try reflexivity; try contradiction;
    destruct (kind f); try reflexivity; contradiction.
Qed.

Lemma builtin_null E n f d : plain_null f -> u_null_repr (builtin E n f) d = null_repr (do_dump E n) f d.
Proof. intros H. unfold u_null_repr, null_repr. rewrite builtin_size; auto. Qed.

Lemma builtin_to E n f v ctx d : plain_null f -> u_to_stream (builtin E n f) v ctx d = field_to_stream E n f v ctx d.
Proof.
  intros H. unfold u_to_stream, field_to_stream, field_to_stream_with, to_stream_with.
  rewrite builtin_null, builtin_size by auto. reflexivity.
Qed.

Lemma builtin_from E n f ctx d s : plain_null f -> u_from_stream (py_eq E n) (builtin E n f) ctx d s = field_from_stream E n f ctx d s.
Proof. intros H. unfold u_from_stream, field_from_stream, field_from_stream_with. rewrite builtin_null; auto. Qed.

Lemma builtin_struct_to E n cid vals ctx : (forall name f, In (name, f) (comps E cid) -> plain_null f) ->
  u_struct_to_stream E n (builtins E n (comps E cid)) cid vals ctx = struct_to_stream E n cid vals ctx.
Proof.
  intros H. unfold u_struct_to_stream, struct_to_stream, struct_to_stream_with.
  destruct (validate_contents E n cid vals) as [[]| |]; [|reflexivity|reflexivity]. rewrite !dbind_ok.
  destruct (to_dict E n cid vals false) as [all| |]; [|reflexivity|reflexivity]. rewrite !dbind_ok.
  induction (comps E cid) as [|[name f] fs IH]; [reflexivity|]. cbn [builtins map fst snd u_dump_fields dump_fields].
  change (u_conf (builtin E n f)) with (conf f).
  destruct (run_dict all (compute_value_for_dump (conf f) ctx)) as [v| |]; [|reflexivity|reflexivity]. rewrite !dbind_ok.
  rewrite builtin_to by (eapply H; left; reflexivity). unfold builtins in IH. rewrite IH; [reflexivity|].
  intros nm g Hin. eapply H. right. eauto.
Qed.

Lemma builtin_load_fields E n ctx fs : (forall name f, In (name, f) fs -> plain_null f) -> forall results s,
  u_load_fields (py_eq E n) (builtins E n fs) ctx results s = load_fields E (do_load E n) n fs ctx results s.
Proof.
  induction fs as [|[name f] fs IH]; intros H results s; [reflexivity|]. cbn [builtins map fst snd u_load_fields load_fields].
  unfold lbind. rewrite builtin_from by (eapply H; left; reflexivity).
  change (field_from_stream_with E (do_load E n) n f ctx results s) with (field_from_stream E n f ctx results s).
  destruct (field_from_stream E n f ctx results s) as [s' [v| |]]; try reflexivity.
  apply IH. intros nm g Hin. eapply H. right. eauto.
Qed.

Lemma builtin_struct_from E n cid ctx init s : (forall name f, In (name, f) (comps E cid) -> plain_null f) ->
  u_struct_from_stream (py_eq E n) E n (builtins E n (comps E cid)) cid ctx init s = struct_from_stream E n cid ctx init s.
Proof.
  intros H. unfold u_struct_from_stream, struct_from_stream, struct_from_stream_with, lbind at 1 4.
  rewrite builtin_load_fields by auto. reflexivity.
Qed.

(** The containers of user-defined fields are the library's containers. *)
Lemma builtin_array E n c comp cnt halt v ctx d s : plain_null comp ->
  u_dump (builtin E (S n) (Field c (KArray comp cnt halt))) v ctx d
  = u_dump (u_array (py_eq E n) n c (builtin E n comp) cnt halt) v ctx d
  /\ u_load (builtin E (S n) (Field c (KArray comp cnt halt))) ctx d s
     = u_load (u_array (py_eq E n) n c (builtin E n comp) cnt halt) ctx d s.
Proof.
  intros H. cbn [builtin u_array u_dump u_load do_dump do_load kind].
  split.
  - unfold array_dump. change (name_of (Field c (KArray comp cnt halt))) with (c_name c).
    assert (He : forall x, u_to_stream (builtin E n comp) x ctx d = field_to_stream_with (do_dump E n) comp x ctx d) by (intros; apply builtin_to; auto).
    assert (Hi : forall l, dump_items (fun x => field_to_stream_with (do_dump E n) comp x ctx d) l
                           = dump_items (fun x => u_to_stream (builtin E n comp) x ctx d) l).
    { induction l as [|x l IH]; [reflexivity|]. cbn [dump_items]. rewrite He, IH. reflexivity. }
    assert (Hu : forall l ne k, dump_unsized (fun x => field_to_stream_with (do_dump E n) comp x ctx d) (c_name c) ne k l
                                = dump_unsized (fun x => u_to_stream (builtin E n comp) x ctx d) (c_name c) ne k l).
    { induction l as [|x l IH]; intros ne k; [reflexivity|]. cbn [dump_unsized]. rewrite He, IH. reflexivity. }
    destruct (get_final_element_count cnt d) as [ne| |]; [|reflexivity|reflexivity]. rewrite !dbind_ok.
    destruct (sized_items v); [rewrite Hi; reflexivity|]. destruct v; try reflexivity. apply Hu.
  - change (name_of (Field c (KArray comp cnt halt))) with (c_name c).
    assert (Hl : forall m vs s, array_load m (array_halt cnt halt (c_name c) ctx d) (field_from_stream_with E (do_load E n) n comp ctx d) vs s
              = array_load m (array_halt cnt halt (c_name c) ctx d) (u_from_stream (py_eq E n) (builtin E n comp) ctx d) vs s).
    { induction m as [|m IH]; intros vs s'; [reflexivity|]. cbn [array_load].
      destruct (array_halt cnt halt (c_name c) ctx d s' vs) as [[[] vs']| |]; try reflexivity.
      rewrite builtin_from by auto. unfold field_from_stream.
      destruct (field_from_stream_with E (do_load E n) n comp ctx d s') as [s2 [x| |]]; try reflexivity. apply IH. }
    apply Hl.
Qed.

(** ** One field *)

Lemma must_have_size f d size : must_have f d size ->
  match c_size (u_conf f) with SInt n => Ok n | SNone => Ok 0 | SRef _ => u_get_expected_size f d end = Ok size
  /\ c_size (u_conf f) <> SNone.
Proof.
  unfold must_have, u_get_expected_size. destruct (c_size (u_conf f)) as [|n|nm]; try contradiction.
  - intros ->. split; [auto|discriminate].
  - intros ->. split; [auto|discriminate].
Qed.

Lemma to_stream_iff f v ctx d out : object v ->
  u_to_stream f v ctx d = (out, Ok tt)
  <-> accepts (u_conf f) v /\ exists bs, u_dump f v ctx d = (bs, Ok tt) /\ sealed f d bs out.
Proof.
  intros Hv. apply object_data in Hv. unfold u_to_stream.
  replace (is_default v) with false by (destruct v; try discriminate Hv; reflexivity). rewrite dbind_ok.
  replace (is_undefined v) with false by (destruct v; try discriminate Hv; reflexivity).
  replace (is_none v) with false by (destruct v; try discriminate Hv; reflexivity).
  replace (is_default v) with false by (destruct v; try discriminate Hv; reflexivity). cbn [orb].
  destruct (run_validators (c_validators (u_conf f)) v) as [[]|e|] eqn:Hr.
  2,3: split; [rewrite ?dbind_raise, ?dbind_oof; discriminate|intros (Ha & _); apply accepts_run in Ha; congruence].
  rewrite dbind_ok. apply run_accepts in Hr. destruct (u_dump f v ctx d) as [bs [[]|e|]].
  2,3: split; [rewrite ?dbind_raise, ?dbind_oof; discriminate|intros (_ & bs' & Hd & _); discriminate].
  rewrite dbind_ok.
  destruct (c_size (u_conf f)) as [|n|nm] eqn:Hs.
  - rewrite dbind_ok, Z.sub_diag. change (0 <? 0) with false. cbv iota. unfold dwrite. split.
    + intros H. injection H as <-. split; [auto|]. exists bs. split; [auto|]. left. auto.
    + intros (_ & bs' & Hd & Hse). injection Hd as <-. destruct Hse as [(_ & ->)|(size & Hm & _)]; [auto|].
      unfold must_have in Hm. rewrite Hs in Hm. contradiction.
  - rewrite dbind_ok. assert (Hm : forall z, must_have f d z <-> z = n) by (intros; unfold must_have; rewrite Hs; tauto).
    cbv zeta. split.
    + intros H. split; [auto|]. exists bs. split; [auto|]. right. exists n. split; [apply Hm; auto|].
      destruct (0 <? zlen bs - n) eqn:H1; [discriminate|]. destruct (zlen bs - n <? 0) eqn:H2.
      * right. split; [lia|]. destruct (u_pad f bs n) as [p| |]; try discriminate. rewrite dbind_ok in H. injection H as <-. auto.
      * left. injection H as <-. split; [lia|auto].
    + intros (_ & bs' & Hd & Hse). injection Hd as <-. destruct Hse as [(Hs' & _)|(size & Hsz & Hse)]; [congruence|].
      apply Hm in Hsz. subst size. destruct Hse as [(Hz & ->)|(Hz & Hp)].
      * rewrite (proj2 (Z.ltb_ge _ _)), (proj2 (Z.ltb_ge _ _)) by lia. reflexivity.
      * rewrite (proj2 (Z.ltb_ge _ _)), (proj2 (Z.ltb_lt _ _)), Hp by lia. rewrite dbind_ok. reflexivity.
  - assert (Hm : forall z, must_have f d z <-> u_get_expected_size f d = Ok z).
    { intros z. unfold must_have, u_get_expected_size. rewrite Hs. destruct (dget d nm) as [[| | | |z'|x|b|t|u|us aw|l|g|dd|cid dd]|];
        split; intros H; try discriminate; try congruence. }
    destruct (u_get_expected_size f d) as [n|e|] eqn:Hgs.
    2,3: split; [rewrite ?dbind_raise, ?dbind_oof; discriminate|]; intros (_ & bs' & Hd & [(Hs' & _)|(size & Hsz & _)]);
      [congruence|apply Hm in Hsz; discriminate].
    rewrite dbind_ok. cbv zeta. split.
    + intros H. split; [auto|]. exists bs. split; [auto|]. right. exists n. split; [apply Hm; auto|].
      destruct (0 <? zlen bs - n) eqn:H1; [discriminate|]. destruct (zlen bs - n <? 0) eqn:H2.
      * right. split; [lia|]. destruct (u_pad f bs n) as [p| |]; try discriminate. rewrite dbind_ok in H. injection H as <-. auto.
      * left. injection H as <-. split; [lia|auto].
    + intros (_ & bs' & Hd & Hse). injection Hd as <-. destruct Hse as [(Hs' & _)|(size & Hsz & Hse)]; [congruence|].
      apply Hm in Hsz. injection Hsz as <-. destruct Hse as [(Hz & ->)|(Hz & Hp)].
      * rewrite (proj2 (Z.ltb_ge _ _)), (proj2 (Z.ltb_ge _ _)) by lia. reflexivity.
      * rewrite (proj2 (Z.ltb_ge _ _)), (proj2 (Z.ltb_lt _ _)), Hp by lia. rewrite dbind_ok. reflexivity.
Qed.

Lemma to_stream_null f ctx d out : u_to_stream f VNone ctx d = (out, Ok tt)
  <-> accepts (u_conf f) VNone /\ u_null_repr f d = Ok out.
Proof.
  unfold u_to_stream. cbn [is_default is_undefined is_none orb]. rewrite dbind_ok. cbn [is_default is_undefined is_none orb].
  destruct (run_validators (c_validators (u_conf f)) VNone) as [[]|e|] eqn:Hr.
  2,3: split; [rewrite ?dbind_raise, ?dbind_oof; discriminate|intros (Ha & _); apply accepts_run in Ha; congruence].
  rewrite dbind_ok. apply run_accepts in Hr. destruct (u_null_repr f d) as [bs|e|].
  2,3: split; [rewrite ?dbind_raise, ?dbind_oof; discriminate|intros (_ & Hd); discriminate].
  rewrite dbind_ok. unfold dwrite. split; [intros H; injection H as <-; auto|intros (_ & H); injection H as <-; auto].
Qed.

Lemma all_or_nothing f v ctx d out r : u_to_stream f v ctx d = (out, r) -> r <> Ok tt -> out = [].
Proof.
  unfold u_to_stream. intros H Hr.
  destruct (if is_default v then default_of (u_conf f) else Ok v) as [v'|e|].
  2,3: injection H as <- <-; auto.
  rewrite dbind_ok in H. destruct (is_undefined v' || is_default v'). { injection H as <- <-; auto. }
  destruct (run_validators (c_validators (u_conf f)) v') as [[]|e|].
  2,3: injection H as <- <-; auto.
  rewrite dbind_ok in H. destruct (is_none v').
  { destruct (u_null_repr f d) as [bs|e|]; [rewrite dbind_ok in H; unfold dwrite in H; congruence| |]; injection H as <- <-; auto. }
  destruct (u_dump f v' ctx d) as [bs [[]|e|]].
  2,3: injection H as <- <-; auto.
  rewrite dbind_ok in H.
  destruct (match c_size (u_conf f) with SInt n => Ok n | SNone => _ | SRef _ => _ end) as [n|e|].
  2,3: injection H as <- <-; auto.
  rewrite dbind_ok in H. cbv zeta in H. destruct (0 <? zlen bs - n). { injection H as <- <-; auto. }
  destruct (zlen bs - n <? 0); [|unfold dwrite in H; congruence].
  destruct (u_pad f bs n) as [p|e|]; [rewrite dbind_ok in H; unfold dwrite in H; congruence| |]; injection H as <- <-; auto.
Qed.

(** [_do_dump] sees accepted objects and the null value only. *)
Lemma dump_called f g v ctx d : u_conf g = u_conf f -> u_size_for g = u_size_for f -> u_pad g = u_pad f ->
  (forall x ctx, object x -> accepts (u_conf f) x \/ x = c_null (u_conf f) -> u_dump g x ctx d = u_dump f x ctx d) ->
  u_to_stream g v ctx d = u_to_stream f v ctx d.
Proof.
  intros Hc Hs Hp Hd.
  assert (Hn : u_null_len g d = u_null_len f d).
  { unfold u_null_len. rewrite Hc. destruct (c_null (u_conf f)) eqn:He; try reflexivity;
      (rewrite Hd; [reflexivity|repeat split; discriminate|auto]). }
  assert (Hg : u_get_expected_size g d = u_get_expected_size f d).
  { unfold u_get_expected_size. rewrite Hc, Hs, Hn. reflexivity. }
  assert (Hr : u_null_repr g d = u_null_repr f d).
  { unfold u_null_repr, null_repr_with. rewrite Hc, Hg. destruct (c_null (u_conf f)) eqn:He; try reflexivity;
      (rewrite Hd; [reflexivity|repeat split; discriminate|auto]). }
  unfold u_to_stream. rewrite Hc, Hr, Hg, Hp.
  destruct (if is_default v then default_of (u_conf f) else Ok v) as [x|e|]; [|reflexivity|reflexivity].
  rewrite !dbind_ok. destruct (is_undefined x || is_default x) eqn:Hu; [reflexivity|].
  destruct (run_validators (c_validators (u_conf f)) x) as [[]|e|] eqn:Hv; [|reflexivity|reflexivity].
  rewrite !dbind_ok. destruct (is_none x) eqn:Hno; [reflexivity|]. rewrite Hd; [reflexivity| |left; apply run_accepts; auto].
  apply Bool.orb_false_iff in Hu. destruct Hu. apply object_data. destruct x; try reflexivity; discriminate.
Qed.

(** What [from_stream] adds to [_do_load]. *)
Lemma present_from eqv f ctx d s s' w :
  run_dict d (c_present (u_conf f) ctx (Some s)) = Ok true ->
  c_null (u_conf f) = VUndefined
  \/ (exists nr, u_null_repr f d = Ok nr /\ forall suf, rest s <> nr ++ suf) /\ eqv w (c_null (u_conf f)) = Ok false ->
  c_const (u_conf f) = VUndefined \/ eqv w (c_const (u_conf f)) = Ok true ->
  accepts (u_conf f) w -> u_load f ctx d s = (s', Ok w) -> u_from_stream eqv f ctx d s = (s', Ok w).
Proof.
  intros Hp Hn Hc Ha H. unfold u_from_stream, from_stream_with. rewrite Hp.
  assert (Hrest : (do _ <- (if negb (is_undefined (c_const (u_conf f))) then
             do b <- eqv w (c_const (u_conf f));
             if b then Ok tt else Raise (EValidation (c_name (u_conf f))) else Ok tt);
           run_validators (c_validators (u_conf f)) w) = Ok tt).
  { rewrite (accepts_run _ _ Ha). destruct Hc as [-> |Hc]; [reflexivity|].
    destruct (negb (is_undefined (c_const (u_conf f)))); [rewrite Hc|]; reflexivity. }
  unfold allow_null. destruct Hn as [Hn|((nb & Hnb & Hne) & Heq)].
  - rewrite Hn. cbn [is_undefined negb]. unfold lbind, llift, lret. rewrite H. cbn [bind].
    destruct (if negb (is_undefined (c_const (u_conf f))) then _ else _) as [[]| |]; try discriminate Hrest.
    cbn [bind] in Hrest. rewrite Hrest. reflexivity.
  - destruct (is_undefined (c_null (u_conf f))) eqn:Hu; cbn [negb].
    { unfold lbind, llift, lret. rewrite H. cbn [bind].
      destruct (if negb (is_undefined (c_const (u_conf f))) then _ else _) as [[]| |]; try discriminate Hrest.
      cbn [bind] in Hrest. rewrite Hrest. reflexivity. }
    rewrite Hnb. unfold peek_bytes. destruct (read s (zlen nb)) as [data s1] eqn:Hread. cbn [negb andb].
    destruct (bytes_eqb data nb) eqn:Hb.
    + apply bytes_eqb_eq in Hb. subst data. apply read_spec in Hread. destruct Hread as (suf & Hr & _).
      destruct (Hne suf Hr).
    + unfold lbind, llift, lret. rewrite H, Heq. cbn [bind].
      destruct (if negb (is_undefined (c_const (u_conf f))) then _ else _) as [[]| |]; try discriminate Hrest.
      cbn [bind] in Hrest. rewrite Hrest. reflexivity.
Qed.

(** Without a null value: exactly what [_do_load] loads, if it is accepted. *)
Lemma from_iff eqv f ctx d s s' w : run_dict d (c_present (u_conf f) ctx (Some s)) = Ok true -> c_null (u_conf f) = VUndefined ->
  u_from_stream eqv f ctx d s = (s', Ok w)
  <-> u_load f ctx d s = (s', Ok w) /\ accepts (u_conf f) w
      /\ (c_const (u_conf f) = VUndefined \/ eqv w (c_const (u_conf f)) = Ok true).
Proof.
  intros Hp Hn. split; [|intros (H & Ha & Hc); apply present_from; auto].
  unfold u_from_stream, from_stream_with. rewrite Hp. unfold allow_null. rewrite Hn. cbn [is_undefined negb].
  unfold lbind, llift, lret. destruct (u_load f ctx d s) as [s1 [v|e|]]; try discriminate.
  destruct (is_undefined (c_const (u_conf f))) eqn:Hu; cbn [negb bind].
  - destruct (run_validators (c_validators (u_conf f)) v) as [[]| |] eqn:Hr; try discriminate.
    intros H. injection H as <- <-. split; [auto|]. split; [apply run_accepts; auto|]. left. destruct (c_const (u_conf f)); auto; discriminate.
  - destruct (eqv v (c_const (u_conf f))) as [[|]| |] eqn:He; cbn [bind]; try discriminate.
    destruct (run_validators (c_validators (u_conf f)) v) as [[]| |] eqn:Hr; try discriminate.
    intros H. injection H as <- <-. split; [auto|]. split; [apply run_accepts; auto|]. right. auto.
Qed.

(** An error of [_do_load] is passed on with the field's name. *)
Lemma from_raises eqv f ctx d s s' e : run_dict d (c_present (u_conf f) ctx (Some s)) = Ok true -> c_null (u_conf f) = VUndefined ->
  u_load f ctx d s = (s', Raise e) -> u_from_stream eqv f ctx d s = (s', Raise (set_field (c_name (u_conf f)) e)).
Proof.
  intros Hp Hn H. unfold u_from_stream, from_stream_with. rewrite Hp. unfold allow_null. rewrite Hn. cbn [is_undefined negb].
  unfold lbind. rewrite H. reflexivity.
Qed.

Lemma null_from eqv f ctx d nb pre suf : shows_up f ctx d true -> u_null_repr f d = Ok nb -> c_null (u_conf f) <> VUndefined ->
  accepts (u_conf f) VNone -> u_from_stream eqv f ctx d (at_data pre nb suf) = (after_data pre nb suf, Ok VNone).
Proof.
  intros Hp Hnb Hc Ha. unfold u_from_stream, from_stream_with. rewrite Hp.
  assert (Hal : allow_null (u_conf f) = true).
  { unfold allow_null. destruct (c_null (u_conf f)); auto; contradiction. }
  rewrite Hal, Hnb. unfold peek_bytes. rewrite (read_app _ nb suf (rest_at pre nb suf)). cbn [negb andb].
  rewrite bytes_eqb_refl, (accepts_run _ _ Ha), advance_at. reflexivity.
Qed.

Lemma absent_from eqv f ctx d s : shows_up f ctx d false -> u_from_stream eqv f ctx d s = (s, Ok (c_npv (u_conf f))).
Proof. intros H. unfold u_from_stream, from_stream_with. rewrite H. reflexivity. Qed.

Lemma field_roundtrip eqv f ctx d ctx' dl v w out pre suf : restores eqv f ctx d ctx' dl v w ->
  (if is_not_present v then dret tt else u_to_stream f v ctx d) = (out, Ok tt) ->
  u_from_stream eqv f ctx' dl (at_data pre out suf) = (after_data pre out suf, Ok w).
Proof.
  intros Hr Ho. destruct Hr as [v w Hob Hnp Hu Hs Ha Hc Hn|Hc Hnr Hs|Hs].
  - replace (is_not_present v) with false in Ho by (destruct v; try reflexivity; congruence).
    apply to_stream_iff in Ho; [|auto]. destruct Ho as (_ & bs & Hd & Hse).
    apply present_from; [auto| |auto|auto|eapply Hu; eauto].
    destruct Hn as [Hn|((nr & Hnr & Hcl) & He)]; [auto|]. right. split; [|auto]. exists nr. split; [auto|].
    intros suf'. rewrite rest_at. intros Heq. symmetry in Heq. revert Heq. apply clash_prefix. eapply Hcl; eauto.
  - cbn [is_not_present] in Ho. apply to_stream_null in Ho. destruct Ho as (Ha & Ho).
    apply null_from; auto. congruence.
  - cbn [is_not_present] in Ho. injection Ho as <-. rewrite (absent_from eqv f ctx' dl _ Hs), <- after_nil. reflexivity.
Qed.

(** ** Structs *)

Lemma fields_roundtrip eqv ctx d ctx' : forall fs dl ws out pre suf, all_restored eqv ctx d ctx' fs dl ws ->
  u_dump_fields fs ctx d = (out, Ok tt) ->
  u_load_fields eqv fs ctx' dl (at_data pre out suf) = (after_data pre out suf, Ok (dl ++ ws)).
Proof.
  intros fs dl ws out pre suf H. revert out pre.
  induction H as [dl|name f fs dl v w ws Hnew Hv Hr _ IH]; intros out pre Ho; cbn [u_dump_fields u_load_fields] in *.
  - injection Ho as <-. rewrite app_nil_r, <- after_nil. reflexivity.
  - rewrite Hv, dbind_ok in Ho. apply dbind_ok_inv in Ho. destruct Ho as (o1 & [] & o2 & Ho1 & Ho2 & ->).
    unfold lbind. rewrite at_app. rewrite (field_roundtrip _ _ _ _ _ _ _ _ _ _ _ Hr Ho1).
    replace (dmem dl name) with false.
    2: { symmetry. apply Bool.not_true_is_false. intros Hm. apply dmem_in in Hm. contradiction. }
    rewrite after_at, (IH _ _ Ho2), after_app, <- app_assoc. reflexivity.
Qed.

Lemma struct_roundtrip eqv E n fs cid vals ctx ctx' out all ws pre suf :
  to_dict E n cid vals false = Ok all -> all_restored eqv ctx all ctx' fs [] ws ->
  incl (dkeys ws) (map fst (comps E cid)) -> validate_contents E n cid ws = Ok tt ->
  u_struct_to_stream E n fs cid vals ctx = (out, Ok tt) ->
  u_struct_from_stream eqv E n fs cid ctx' [] (at_data pre out suf) = (after_data pre out suf, Ok (delete_discard (comps E cid) ws)).
Proof.
  intros Hall Hr Hi Hv H. unfold u_struct_to_stream in H.
  destruct (validate_contents E n cid vals) as [[]| |]; [|discriminate|discriminate]. rewrite Hall, !dbind_ok in H.
  unfold u_struct_from_stream. unfold lbind at 1. rewrite (fields_roundtrip _ _ _ _ _ _ _ _ pre suf Hr H). cbn [app].
  assert (Hst : struct_init E cid ws = Ok ws).
  { unfold struct_init. replace (filter _ (dkeys ws)) with (@nil string); [reflexivity|]. symmetry.
    clear - Hi. induction (dkeys ws) as [|k ks IH]; [reflexivity|]. cbn [filter].
    destruct (assoc (comps E cid) k) eqn:Ha; [apply IH; intros x Hx; apply Hi; right; auto|].
    exfalso. apply assoc_none in Ha. apply Ha. apply Hi. left. auto. }
  rewrite Hst. unfold lbind, llift. rewrite Hv. reflexivity.
Qed.

(** ** Containers of user-defined fields *)

Lemma nested_undoes eqv E n c fs cid ctx d ctx' dl vals all ws :
  to_dict E n cid vals false = Ok all -> all_restored eqv ctx all ctx' fs [] ws ->
  incl (dkeys ws) (map fst (comps E cid)) -> validate_contents E n cid ws = Ok tt ->
  undoes (u_nested eqv E n c fs cid) ctx d ctx' dl (VStruct cid vals) (VStruct cid (delete_discard (comps E cid) ws)).
Proof.
  intros Hall Hr Hi Hv bs out pre suf Hd Hse. cbn [u_nested u_dump u_load] in *.
  assert (Ho : out = bs).
  { destruct Hse as [(_ & ->)|(size & _ & [(_ & ->)|(_ & Hp)])]; auto. discriminate Hp. }
  subst out. unfold lbind, lret. rewrite (struct_roundtrip _ _ _ _ _ _ _ _ _ _ _ pre suf Hall Hr Hi Hv Hd). reflexivity.
Qed.

Lemma union_undoes c choices ld dmp i g ctx d ctx' dl v w : nth_error choices i = Some g -> object v ->
  dmp v ctx d = Ok i -> (forall s, ld s ctx' dl = Ok i) -> undoes g ctx d ctx' dl v w ->
  undoes (u_union c choices ld dmp) ctx d ctx' dl v w.
Proof.
  intros Hi Hv Hd Hl Hu bs out pre suf Ho Hse. cbn [u_union u_dump u_load] in *.
  assert (Hout : out = bs).
  { destruct Hse as [(_ & ->)|(size & _ & [(_ & ->)|(_ & Hp)])]; auto. discriminate Hp. }
  subst out. rewrite Hd, dbind_ok, Hi in Ho. rewrite Hl, Hi. apply to_stream_iff in Ho; [|auto].
  destruct Ho as (_ & b & Hb & Hs). eapply Hu; eauto.
Qed.

Lemma elements_loaded eqv comp ctx d ctx' dl : forall l ws parts,
  Forall2 (restores eqv comp ctx d ctx' dl) l ws -> Forall (fun v => v <> VNotPresent) l -> Forall (fun w => w <> VNotPresent) ws ->
  Forall2 (fun x bs => u_to_stream comp x ctx d = (bs, Ok tt)) l parts ->
  forall m halt done pre suf, (length l < m)%nat ->
  (forall s vs, (length vs < length done + length l)%nat -> halt s vs = Ok (false, vs)) ->
  (forall s vs, (length vs = length done + length l)%nat -> halt s vs = Ok (true, vs)) ->
  array_load m halt (u_from_stream eqv comp ctx' dl) done (at_data pre (concat parts) suf)
  = (after_data pre (concat parts) suf, Ok (VList (done ++ ws))).
Proof.
  intros l ws parts Hr. revert parts. induction Hr as [|v w l ws Hvw _ IH]; intros parts Hl Hw Hp m halt done pre suf Hm Hf Ht.
  - inversion Hp. subst. cbn [concat]. destruct m as [|m]; [inversion Hm|]. cbn [array_load].
    rewrite Ht by (cbn; lia). rewrite app_nil_r, <- after_nil. reflexivity.
  - inversion Hp as [|x bs l' parts' Hx Hps]. subst. inversion Hl. inversion Hw. subst. destruct m as [|m]; [inversion Hm|].
    cbn [array_load concat]. rewrite Hf by (cbn; lia). rewrite at_app.
    assert (Hx' : (if is_not_present v then dret tt else u_to_stream comp v ctx d) = (bs, Ok tt)).
    { destruct (is_not_present v) eqn:He; [destruct v; try discriminate; congruence|auto]. }
    rewrite (field_roundtrip _ _ _ _ _ _ _ _ _ _ _ Hvw Hx').
    replace (is_not_present w) with false by (destruct w; try reflexivity; congruence).
    rewrite after_at. rewrite (IH parts'); auto.
    + rewrite after_app, <- app_assoc. reflexivity.
    + cbn in Hm. lia.
    + intros s vs Hvs. apply Hf. rewrite app_length in Hvs. cbn in *. lia.
    + intros s vs Hvs. apply Ht. rewrite app_length in Hvs. cbn in *. lia.
Qed.

Lemma array_undoes eqv m c comp cnt ctx d ctx' dl l ws : (length l < m)%nat -> count_known cnt dl (zlen l) ->
  Forall2 (restores eqv comp ctx d ctx' dl) l ws -> Forall (fun v => v <> VNotPresent) l -> Forall (fun w => w <> VNotPresent) ws ->
  undoes (u_array eqv m c comp cnt None) ctx d ctx' dl (VList l) (VList ws).
Proof.
  intros Hm Hc Hr Hl Hw bs out pre suf Hd Hse. cbn [u_array u_dump u_load] in *.
  assert (Hout : out = bs).
  { destruct Hse as [(_ & ->)|(size & _ & [(_ & ->)|(_ & Hp)])]; auto. discriminate Hp. }
  subst out. apply array_dump_list in Hd. destruct Hd as (_ & parts & Hp & ->).
  rewrite (elements_loaded eqv comp ctx d ctx' dl l ws parts Hr Hl Hw Hp); auto; intros s vs Hvs; cbn [length Nat.add] in Hvs;
    unfold array_halt, should_halt, get_final_element_count; destruct cnt as [|z|nm|]; cbn [count_known] in Hc; try contradiction;
    try rewrite Hc; cbn [bind count_at_most]; try subst z; f_equal; f_equal; unfold zlen in *; (apply Z.leb_le || apply Z.leb_gt); lia.
Qed.

(** ** Sizes, null values and [from_bytes] *)

Lemma expected_size f d :
  match c_size (u_conf f) with
  | SInt n => u_get_expected_size f d = Ok n
  | SRef name => forall n, u_get_expected_size f d = Ok n <-> dget d name = Some (VInt n)
  | SNone => forall name v n, c_name (u_conf f) = Some name -> dget d name = Some v ->
             u_get_expected_size f d = Ok n <-> (v <> VNone /\ u_size_for f v = Ok (Some n))
                \/ (v = VNone /\ exists bs, u_null_repr f d = Ok bs /\ n = zlen bs)
  end.
Proof.
  destruct (c_size (u_conf f)) as [|z|nm] eqn:Hs.
  - intros name v n Hname Hv. unfold u_null_repr. 
    assert (He : u_get_expected_size f d = if is_none v then u_null_len f d
                 else do sz <- u_size_for f v; match sz with Some n => Ok n | None => Raise (EUndefinedSize (c_name (u_conf f))) end).
    { unfold u_get_expected_size. rewrite Hs, Hname. cbn [oget]. rewrite Hv. reflexivity. }
    destruct (is_none v) eqn:Hn.
    + destruct v; try discriminate. rewrite He. unfold u_null_len, null_repr_with.
      destruct (c_null (u_conf f)) eqn:Hc.
      all: try (destruct (u_dump f _ VNone d) as [o [[]|e|]]).
      all: split; [intros H; first [discriminate H|injection H as <-; right; split; [auto|eexists; split; reflexivity]]|].
      all: intros [(H & _)|(_ & nb & H & ->)]; [congruence|].
      all: try discriminate H; try (injection H as <-; reflexivity).
      all: exfalso; rewrite He in H; unfold u_null_len in H; rewrite Hc in H; cbn in H; discriminate H.
    + rewrite He. destruct (u_size_for f v) as [[m|]|e|]; cbn [bind];
        (split; [intros H; first [discriminate H|left; split; [intros ->; discriminate|congruence]]|]);
        intros [(_ & H)|(-> & _)]; try discriminate; congruence.
  - unfold u_get_expected_size. rewrite Hs. reflexivity.
  - intros n. unfold u_get_expected_size. rewrite Hs.
    destruct (dget d nm) as [[| | | |z'|x|b|t|u|us aw|l|g|dd|cid dd]|]; split; intros H; try discriminate; congruence.
Qed.

Lemma null_repr_is f d :
  match c_null (u_conf f) with
  | VUndefined => u_null_repr f d = Raise (EUnserializable (c_name (u_conf f)))
  | VBytes bs => u_null_repr f d = Ok bs
  | VDefault | VNone => forall n, u_get_expected_size f d = Ok n -> u_null_repr f d = Ok (repeat 0 (Z.to_nat n))
  | v => forall bs, u_null_repr f d = Ok bs <-> u_dump f v VNone d = (bs, Ok tt)
  end.
Proof.
  unfold u_null_repr, null_repr_with. destruct (c_null (u_conf f)) eqn:Hc; try reflexivity.
  all: try (intros n ->; reflexivity).
  all: intros bs; destruct (u_dump f _ VNone d) as [o [[]|e|]]; split; intros H; try discriminate; congruence.
Qed.

Lemma from_bytes_roundtrip eqv f ctx d ctx' dl v w out suf exact : restores eqv f ctx d ctx' dl v w ->
  (if is_not_present v then dret tt else u_to_stream f v ctx d) = (out, Ok tt) ->
  u_from_bytes eqv f (out ++ suf) ctx' exact dl
  = if exact then match suf with [] => Ok w | _ => Raise (EExtraneous None) end else Ok w.
Proof.
  intros Hr Ho. pose proof (field_roundtrip eqv f ctx d ctx' dl v w out [] suf Hr Ho) as H.
  unfold at_data in H. cbn [app length] in H. unfold u_from_bytes. rewrite H.
  unfold tell, after_data. cbn [s_pos length Nat.add]. unfold zlen. rewrite app_length.
  destruct exact; [|reflexivity]. cbn [andb]. destruct suf as [|x suf].
  - rewrite (proj2 (Z.ltb_ge _ _)); [reflexivity|]. cbn [length]. lia.
  - rewrite (proj2 (Z.ltb_lt _ _)); [reflexivity|]. cbn [length]. lia.
Qed.
