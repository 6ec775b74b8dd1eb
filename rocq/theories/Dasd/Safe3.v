(** Every access to the cylinder buffer, concluded: whole operations and histories. *)
From Verif Require Export Dasd.Safe2.

Lemma write_unfold s d a i : dasd_write_byte s d a i =
  if d_step s <? 13 then Ok (set_step s (d_step s + 1), mkRout 0 d a i)
  else
    let s1 := set_step s 0 in
    let '(s2, ix) := if d_tsize s1 <=? d_tpos s1
      then (set_count (set_tpos (set_cpos (set_state s1 PIndex) 65535) 65535) 0, 1) else (s1, i) in
    let s3 := set_cpos (set_count s2 (u16 (d_count s2 + 1))) (u16 (d_cpos s2 + 1)) in
    let* (s, data) := write_case s3 (d_count s2) d a in
    if ty_bpt (d_type s) + 1 <=? d_cpos s
    then Ok (set_state (set_cpos s 65535) PIndex, mkRout 1 data a 1)
    else Ok (s, mkRout 1 data a ix).
Proof. reflexivity. Qed.

Definition wsame (s s' : dasd) : Prop :=
  same s s' /\ loc (d_tstart s) (d_tsize s) (d_cbuf s) (d_cbuf s') /\ d_dirty s' = d_dirty s /\ d_tstart s' = d_tstart s.

Lemma write_finish s s3 x data a ix : same s s3 -> d_cbuf s3 = d_cbuf s -> d_tstart s3 = d_tstart s -> d_dirty s3 = d_dirty s ->
  geo s3 -> wpost s3 x ->
  okp (fun r => sane (fst r) /\ wsame s (fst r))
   (if ty_bpt (d_type x) + 1 <=? d_cpos x
    then Ok (set_state (set_cpos x 65535) PIndex, mkRout 1 data a 1)
    else Ok (x, mkRout 1 data a ix)).
Proof.
  intros S B T D G (A1 & A2 & A3 & A4 & A5). unfold local in A2. destruct S as (S1 & S2 & S3 & S4 & S5 & S6 & S7 & S8).
  destruct A1 as (B1 & B2 & B3 & B4 & B5 & B6 & B7 & B8).
  assert (W : wsame s x).
  { unfold wsame, same. rewrite <- B, <- T, <- S3, <- D. repeat split; try congruence; apply A2. }
  assert (GX : geo x).
  { unfold geo, blen in *. destruct A2 as [L _]. rewrite A4, B2, B3, B7, L. exact G. }
  pose proof (ty_facts (d_type x)) as TF.
  destruct (ty_bpt (d_type x) + 1 <=? d_cpos x) eqn:E; apply okp_ok; ds.
  - split; [|exact W]. split; [exact GX|]. unfold placed, place in *; ds. lia.
  - split; [|exact W]. split; [exact GX|]. unfold placed, place in *. destruct (d_state x); lia.
Qed.

Lemma write_sane s d a i : sane s -> okp (fun r => sane (fst r) /\ wsame s (fst r)) (dasd_write_byte s d a i).
Proof.
  intros [G P]. rewrite write_unfold. destruct (d_step s <? 13).
  - apply okp_ok. ds. repeat split; try reflexivity; try apply G; try apply P.
  - cbv zeta. pose proof (ty_facts (d_type s)) as TF. unfold placed in P.
    destruct (d_tsize (set_step s 0) <=? d_tpos (set_step s 0)) eqn:E; revert E; ds; intros E.
    + set (s3 := set_cpos _ _). apply (okp_bind (fun r => wpost s3 (fst r))).
      * apply wp_write; [exact G| |reflexivity|lia|right; reflexivity].
        unfold s3, placed, place; ds. cbn. lia.
      * intros [x data] W. apply (write_finish s s3); try reflexivity; try exact G; [repeat split|exact W].
    + set (s3 := set_cpos _ _). apply (okp_bind (fun r => wpost s3 (fst r))).
      * apply wp_write; [exact G| |reflexivity| |left; unfold s3; ds; lia].
        -- unfold s3, placed; ds. unfold place in *. destruct (d_state s); unfold u16 in *; Z.div_mod_to_equations; lia.
        -- unfold place in P. lia.
      * intros [x data] W. apply (write_finish s s3); try reflexivity; try exact G; [repeat split|exact W].
Qed.

Lemma step_sane s : sane s -> sane (fst (dasd_step s)) /\ same s (fst (dasd_step s)) /\ d_cbuf (fst (dasd_step s)) = d_cbuf s
  /\ d_dirty (fst (dasd_step s)) = d_dirty s.
Proof.
  intros [G P]. pose proof (ty_facts (d_type s)) as TF. unfold dasd_step. destruct (_ <? _); ds.
  - repeat split; try reflexivity; try apply G; try apply P.
  - destruct (_ <=? _) eqn:E; ds; (split; [split; [exact G|]|repeat split]);
    unfold placed, place in *; ds; destruct (d_state s); unfold u16 in *; Z.div_mod_to_equations; lia.
Qed.

(** *** Positioning *)

Definition uplace (k : Z) (s : dasd) (u : upd_st) : Prop :=
  0 <= u_count u <= k /\ 0 <= u_tpos u <= k /\
  match u_state u with
  | PIndex => True
  | PEnd => True
  | PUnk => True
  | PHa => 0 <= u_rpos u <= 5 /\ (7 <= u_count u -> u_tpos u = 5)
  | _ => 0 <= u_rpos u <= u_tpos u /\ 5 <= u_tpos u
  end
  /\ (u_state u <> PIndex -> 0 <= d_tstart s /\ d_tstart s + 2 * d_tsize s <= blen s).

Definition usame (s s' : dasd) : Prop :=
  same s s' /\ d_cbuf s' = d_cbuf s /\ d_dirty s' = d_dirty s /\ d_cpos s' = d_cpos s /\ geo s'.

Lemma uend_okp {B} (P : B -> Prop) s u f :
  0 <= u_rpos u + d_tstart s -> u_rpos u + d_tstart s + 4 <= blen s ->
  (forall b, okp P (f b)) -> okp P (bind (upd_end s u) f).
Proof.
  intros H1 H2 F. apply (okp_bind (fun _ => True)); [|auto]. unfold upd_end, upd_rec.
  repeat (apply getb_okp; [lia|intros ? _]). apply okp_ok. exact I.
Qed.
Lemma ulens_okp {B} (P : B -> Prop) s u f :
  0 <= u_rpos u + d_tstart s -> u_rpos u + d_tstart s + 8 <= blen s ->
  (forall k d, okp P (f (set_dlen (set_klen s k) d))) -> okp P (bind (upd_lens s u) f).
Proof.
  intros H1 H2 F. apply (okp_bind (fun s' => exists k d, s' = set_dlen (set_klen s k) d)).
  - unfold upd_lens, upd_rec. repeat (apply getb_okp; [lia|intros ? _]). apply okp_ok. eauto.
  - intros a (k & d & ->). apply F.
Qed.

Ltac uds := ds; cbn [u_state u_tpos u_rpos u_count]; ds.
Ltac uside := unfold geo, blen in *; uds; lia.
Ltac uturn :=
  rewrite ?bind_bind; uds;
  first
  [ apply uend_okp; [uside|uside|intros []]
  | apply ulens_okp; [uside|uside|intros ? ?]
  | apply getb_okp; [uside|intros ? _]
  | apply okp_ok; uds
  | split_if ].
Ltac uleaf := unfold usame, same, uplace, geo, blen in *; uds;
  repeat match goal with |- _ /\ _ => split | |- _ -> _ => intro end;
  try reflexivity; try assumption; try exact I; try lia; try congruence.

Lemma turn_ok k s u : geo s -> uplace k s u -> k <= ty_bpt (d_type s) -> d_head s + 1 < ty_heads (d_type s) ->
  okp (fun r => usame s (fst r) /\ uplace (k + 1) (fst r)
         (mkUpd (u_state (snd r)) (u_tpos (snd r)) (u_rpos (snd r)) (u_count (snd r) + 1))) (update_turn s u).
Proof.
  intros G U K H. pose proof (ty_facts (d_type s)) as TF. pose proof (geo_new s G) as N.
  assert (TR : 0 <= d_tsize s * d_head s < 4294967296 /\ d_tsize s * d_head s + 2 * d_tsize s <= blen s).
  { unfold geo in G. destruct G as (G1 & G2 & G3 & G4 & G5). destruct (track_room (d_type s) (d_head s) G5) as (X1 & X2 & X3).
    destruct (track_room (d_type s) (d_head s + 1) ltac:(lia)) as (Y1 & Y2 & Y3). rewrite G1, G2 in *. lia. }
  assert (E32 : u32 (d_tsize s * d_head s) = d_tsize s * d_head s) by (apply u32_small; lia).
  unfold new_tstart in N. rewrite E32 in N.
  destruct s as [fi cb la ty he st di dr at' fl ms fp ts nc cy tp rp cp cn dl tz rc sta dy kl a b sp].
  destruct u as [ust utp urp uc].
  revert G U K H TF N TR E32. ds. intros G U K H TF N TR E32.
  unfold geo, uplace, blen in G, U, N, TR; revert G U N TR; uds; intros G U N TR.
  unfold update_turn, upd_ck, upd_rec, ck_init, ck_xor. uds. rewrite E32.
  destruct ust; try (assert (UT : 0 <= ts /\ ts + 2 * tz <= Z.of_nat (length cb)) by (apply U; discriminate)).
  - repeat uturn; uleaf.
  - repeat uturn; uleaf.
  - repeat uturn; uleaf.
  - repeat uturn; uleaf.
  - repeat uturn; uleaf.
  - repeat uturn; uleaf.
  - repeat uturn; uleaf.
  - repeat uturn; uleaf.
  - repeat uturn; uleaf.
  - repeat uturn; uleaf.
  - repeat uturn; uleaf.
  - repeat uturn; uleaf.
Qed.

Lemma usame_trans a b c : usame a b -> usame b c -> usame a c.
Proof. unfold usame, same. intuition congruence. Qed.

Lemma loop_ok n : forall k s u, geo s -> uplace k s u -> k + Z.of_nat n <= ty_bpt (d_type s) + 1 -> d_head s + 1 < ty_heads (d_type s) ->
  okp (fun r => usame s (fst r) /\ uplace (k + Z.of_nat n) (fst r) (snd r)) (update_loop n s u).
Proof.
  induction n as [|n IH]; intros k s u G U K H.
  - cbn [update_loop]. apply okp_ok. cbn [fst snd Z.of_nat]. rewrite Z.add_0_r. split; [|exact U].
    repeat split; try reflexivity; apply G.
  - cbn [update_loop].
    refine (okp_bind _ _ _ _ (turn_ok k s u G U ltac:(lia) H) _).
    intros [s1 u1] [S1 U1]. cbn [fst snd] in S1, U1.
    destruct S1 as (S1 & C1 & D1 & P1 & G1).
    assert (T1 : d_type s1 = d_type s) by apply S1. assert (H1 : d_head s1 = d_head s) by apply S1.
    destruct (IH (k + 1) s1 _ G1 U1 ltac:(rewrite T1; lia) ltac:(rewrite T1, H1; lia)) as ([s2 u2] & E & S2 & U2).
    exists (s2, u2). split; [exact E|]. cbn [fst snd] in *. split.
    + apply (usame_trans _ s1); [repeat split; assumption || apply S1 || apply G1|exact S2].
    + replace (k + Z.of_nat (S n)) with (k + 1 + Z.of_nat n) by lia. exact U2.
Qed.

Definition upost (s s' : dasd) : Prop := same s s' /\ d_cbuf s' = d_cbuf s /\ d_dirty s' = d_dirty s /\ d_cpos s' = d_cpos s.

Lemma update_sane s : geo s -> 0 <= d_cpos s <= ty_bpt (d_type s) + 1 -> d_head s + 1 < ty_heads (d_type s) ->
  okp (fun s' => sane s' /\ upost s s') (dasd_update s).
Proof.
  intros G C H. unfold dasd_update.
  refine (okp_bind _ _ _ _ (loop_ok (Z.to_nat (d_cpos s)) 0 s (mkUpd PIndex 0 0 0) G _ ltac:(lia) H) _).
  - unfold uplace; cbn [u_state u_tpos u_rpos u_count]. repeat split; try lia; contradiction.
  - intros [s1 u] [(S & B & D & P & G1) U]. cbn [fst snd] in *. apply okp_ok.
    replace (0 + Z.of_nat (Z.to_nat (d_cpos s))) with (d_cpos s) in U by lia.
    pose proof (ty_facts (d_type s)) as TF. assert (T1 : d_type s1 = d_type s) by apply S.
    split.
    + split; [exact G1|]. unfold placed; ds. rewrite T1, P. unfold uplace, place in *.
      rewrite (u16_small (u_count u)), (u16_small (u_tpos u)) by lia.
      destruct (u_state u); try lia; rewrite (u16_small (u_rpos u)) by lia; lia.
    + repeat split; ds; try assumption; apply S.
Qed.

Lemma usane_trans s s' s'' : upost s s' -> upost s' s'' -> upost s s''.
Proof. unfold upost, same. intuition congruence. Qed.

Lemma cond_update (b : bool) s : sane s -> (b = true -> d_state s = PUnk -> d_head s + 1 < ty_heads (d_type s)) ->
  okp (fun s' => sane s' /\ upost s s') (if b && is_unk s then dasd_update s else Ok s).
Proof.
  intros [G P] H. destruct b; cbn [andb].
  - unfold is_unk. destruct (d_state s) eqn:E; try (apply okp_ok; split; [split; assumption|repeat split; reflexivity]).
    apply update_sane; [exact G| |apply H; reflexivity]. unfold placed in P. rewrite E in P. unfold place in P. lia.
  - apply okp_ok; split; [split; assumption|repeat split; reflexivity].
Qed.

(** Tags change neither the buffer nor the image. *)
Definition tpost (s s' : dasd) : Prop :=
  d_file s' = d_file s /\ d_type s' = d_type s /\ d_tsize s' = d_tsize s /\ d_cyl s' = d_cyl s /\ d_fpos s' = d_fpos s
  /\ d_cbuf s' = d_cbuf s /\ d_dirty s' = d_dirty s /\ d_label s' = d_label s.
Lemma tpost_refl s : tpost s s.
Proof. repeat split. Qed.
Lemma tpost_trans a b c : tpost a b -> tpost b c -> tpost a c.
Proof. unfold tpost. intuition congruence. Qed.

Lemma sane_head s h : sane s -> 0 <= h < ty_heads (d_type s) -> sane (set_head s h) /\ sane (new_tstart (set_head s h)).
Proof.
  intros [G P] H. assert (S : geo (set_head s h)) by (unfold geo, blen in *; ds; lia).
  split; (split; [|exact P]); [exact S|exact (geo_new _ S)].
Qed.

Definition good (s : dasd) (p : dasd) : Prop := sane p /\ tpost s p.
Lemma good_refl s : sane s -> good s s.
Proof. intros H. split; [exact H|apply tpost_refl]. Qed.
Lemma good_like s p q : good s p -> d_file q = d_file p -> d_type q = d_type p -> d_tsize q = d_tsize p -> d_cyl q = d_cyl p ->
  d_fpos q = d_fpos p -> d_cbuf q = d_cbuf p -> d_dirty q = d_dirty p -> d_label q = d_label p ->
  d_tstart q = d_tstart p -> d_head q = d_head p -> d_state q = d_state p -> d_tpos q = d_tpos p -> d_rpos q = d_rpos p ->
  d_cpos q = d_cpos p -> d_count q = d_count p -> good s q.
Proof.
  intros [[G P] T] E1 E2 E3 E4 E5 E6 E7 E8 E9 E10 E11 E12 E13 E14 E15. split; [split|].
  - unfold geo, blen in *. rewrite E2, E3, E6, E9, E10. exact G.
  - unfold placed in *. rewrite E2, E11, E12, E13, E14, E15. exact P.
  - unfold tpost in *. intuition congruence.
Qed.
Ltac like := eapply good_like; [eassumption|reflexivity..].

Lemma good_head s p h : good s p -> 0 <= h < ty_heads (d_type p) -> good s (new_tstart (set_head p h)).
Proof. intros [S T] H. split; [apply sane_head; assumption|]. unfold new_tstart, tpost in *. ds. exact T. Qed.
Lemma good_new s p : good s p -> good s (new_tstart p).
Proof.
  intros [[G P] T]. split; [split; [apply geo_new, G|exact P]|]. unfold new_tstart, tpost in *. ds. exact T.
Qed.
Lemma good_advance s p : good s p -> good s (head_advance p).
Proof.
  intros H. pose proof H as [[G P] T]. assert (HH : 0 <= d_head p < ty_heads (d_type p)) by (unfold geo in G; lia).
  unfold head_advance. ds. destruct (_ <=? _) eqn:E.
  - split; [split|].
    + unfold geo, blen in *; ds. lia.
    + exact P.
    + exact T.
  - split; [split|].
    + unfold geo, blen in *; ds. lia.
    + exact P.
    + exact T.
Qed.

Lemma tags_control_ok s ft fc : sane s ->
  (bit fc 128 || (bit fc 64 && bit fc 4) = true -> d_state s = PUnk -> d_head s + 1 < ty_heads (d_type s)) ->
  okp (fun r => good s (fst r)) (tags_control s ft fc).
Proof.
  intros S H. unfold tags_control.
  apply (okp_bind (fun s1 => sane s1 /\ upost s s1 /\ (d_state s1 = PUnk -> d_state s = PUnk))).
  { destruct (bit fc 128) eqn:B; cbn [andb].
    - unfold is_unk. destruct (d_state s) eqn:E; try (apply okp_ok; split; [exact S|repeat split; try reflexivity; intros X; rewrite ?E in X; try discriminate; auto]).
      destruct S as [G P]. destruct (update_sane s G) as (s' & E' & S' & P').
      + unfold placed in P. rewrite E in P. unfold place in P. lia.
      + apply H; reflexivity.
      + exists s'. auto.
    - apply okp_ok. repeat split; try apply S; auto. }
  intros s1 (S1 & U1 & K1).
  apply (okp_bind (fun p => good s p)).
  { destruct (bit fc 64) eqn:B; [|apply okp_ok; split; [exact S1|unfold upost, same, tpost in *; intuition congruence]].
    apply (okp_bind (fun p => sane p /\ upost s1 p)).
    - pose proof (cond_update (bit fc 4) (set_attn s1 false)) as CU.
      destruct CU as (p & E & SP & UP).
      + destruct S1; split; assumption.
      + intros B4 X. ds. unfold upost, same in U1. revert X; ds; intros X.
        replace (d_head s1) with (d_head s) by (symmetry; apply U1). replace (d_type s1) with (d_type s) by (symmetry; apply U1).
        apply H; [rewrite B4; apply orb_true_r|apply K1, X].
      + exists p. split; [exact E|]. split; [exact SP|]. exact UP.
    - intros p [SP UP]. apply okp_ok.
      assert (GP : good s p) by (split; [exact SP|unfold upost, same, tpost in *; intuition congruence]).
      destruct (is14 (d_type p)); [destruct (bit (d_flags p) 64)|]; like || exact GP. }
  intros p GP.
  match goal with |- context [if ?b then (set_status ?x ?y, 1%nat) else ?z] =>
    set (pr := if b then (set_status x y, 1%nat) else z);
    assert (G2 : good s (fst pr)) by (unfold pr; destruct b; ds; [like|exact GP]) end.
  clearbody pr. destruct pr as [x1 n1]. cbn [fst] in G2.
  match goal with |- context [if bit fc 16 then set_flags ?x ?v else _] =>
    assert (G3 : good s (if bit fc 16 then set_flags x v else x)) by (destruct (bit fc 16); [like|exact G2]);
    set (x2 := if bit fc 16 then set_flags x v else x) in *; clearbody x2 end.
  match goal with |- context [if bit fc 4 then set_flags ?x ?v else _] =>
    assert (G4 : good s (if bit fc 4 then set_flags x v else x)) by (destruct (bit fc 4); [like|exact G3]);
    set (x3 := if bit fc 4 then set_flags x v else x) in *; clearbody x3 end.
  assert (Z0 : 0 <= 0 < ty_heads (d_type x3)) by (pose proof (ty_facts (d_type x3)); lia).
  assert (G5 : good s (new_tstart (set_head x3 0))) by (apply good_head; assumption).
  match goal with |- context [if bit fc 2 then ?x else ?y] =>
    assert (G6 : good s (fst (if bit fc 2 then x else y)))
      by (destruct (bit fc 2); ds; [eapply good_like; [exact G5|reflexivity..]|exact G4]);
    destruct (if bit fc 2 then x else y) as [x4 n4]; cbn [fst] in G6 end.
  assert (G7 : good s (head_advance x4)) by (apply good_advance; exact G6).
  apply okp_ok. ds.
  destruct (negb (is14 (d_type x4))); [destruct (bit ft 8)|destruct (bit fc 1); [destruct (bit (d_flags x4) 8)|]];
  solve [eapply good_like; [exact G6|reflexivity..] | eapply good_like; [exact (good_new _ _ G7)|reflexivity..]].
Qed.

Lemma land15 x : 0 <= Z.land x 15.
Proof. apply Z.land_nonneg. right. lia. Qed.

Lemma tags_sane s ft fc : sane s -> op_safe s (OTags ft fc) ->
  okp (fun r => good s (fst r)) (dasd_settags s ft fc).
Proof.
  intros S [O1 O2]. unfold dasd_settags, selects_head, locates in *. destruct (bit ft 1); cbn [negb andb] in *.
  - apply (okp_bind (fun r => good s (fst r))).
    + destruct (bit ft 128); [apply tags_control_ok; assumption|apply okp_ok; apply good_refl, S].
    + intros [p n] GP. cbn [fst] in GP. apply okp_ok. ds.
      set (x1 := if bit ft 64 then set_ncyl p fc else p).
      assert (G1 : good s x1) by (unfold x1; destruct (bit ft 64); [like|exact GP]). clearbody x1.
      set (x2 := if bit ft 32 then tags_head x1 fc else x1).
      assert (G2 : good s x2).
      { unfold x2. destruct (bit ft 32) eqn:B; [|exact G1]. unfold tags_head.
        assert (HH : 0 <= Z.land fc 15 < ty_heads (d_type x1)).
        { pose proof (land15 fc). destruct G1 as [_ T]. replace (d_type x1) with (d_type s) by (symmetry; apply T). specialize (O1 eq_refl). lia. }
        destruct (is14 (d_type x1)); [|destruct (bit (d_flags x1) 2)].
        - apply good_head; [like|exact HH].
        - apply good_new. like.
        - apply (good_like s (new_tstart (set_head x1 (Z.land fc 15)))); try reflexivity. apply good_head; assumption. }
      clearbody x2. destruct (bit ft 16); [like|exact G2].
  - apply okp_ok. apply good_refl, S.
Qed.

(** *** Seeking *)

Lemma cyl_small t : 0 < cyl_size t < 4294967296.
Proof. destruct t; vm_compute; split; reflexivity. Qed.

(** Complete evaluation of the assignments to a known record. *)
Ltac dv := cbv beta iota zeta delta [d_file d_cbuf d_label d_type d_head d_status d_diff d_dir d_attn d_flags d_ams d_fpos d_tstart d_ncyl d_cyl d_tpos d_rpos d_cpos d_count d_dlen d_tsize d_rcnt d_state d_dirty d_klen d_ck0 d_ck1 d_step
  set_file set_cbuf set_label set_type set_head set_status set_diff set_dir set_attn set_flags set_ams set_fpos set_tstart set_ncyl set_cyl set_tpos set_rpos set_cpos set_count set_dlen set_tsize set_rcnt set_state set_dirty set_klen set_ck0 set_ck1 set_step
  bind fst snd new_tstart image].

(** What the end of a seek leaves, for a drive with a pack on it. *)
Definition after_seek (s : dasd) : dasd :=
  let q := set_status (set_flags (set_diff (set_attn s true) 0) (Z.land (d_flags s) 254)) (Z.lor (d_status s) 32) in
  let q := if d_cyl s =? d_ncyl s then q else
    let f := if d_dirty s then over (image s) (Z.to_nat (d_fpos s)) (d_cbuf s) else image s in
    let p := u32 (u32 (blen s * d_ncyl s) + 512) in
    let got := firstn (length (d_cbuf s)) (skipn (Z.to_nat p) f) in
    set_cyl (set_cbuf (set_fpos (set_dirty (set_file q (Some f)) false) p) (got ++ skipn (length got) (d_cbuf s))) (d_ncyl s) in
  new_tstart q.

Lemma got_le n (g : list Z) m : (Z.of_nat (length (firstn n g)) <=? Z.of_nat (n + m)) = true.
Proof. apply Z.leb_le. rewrite firstn_length. lia. Qed.

Lemma seek_is s f : geo s -> d_file s = Some f -> 0 <= d_fpos s -> seek_callback s = Ok (after_seek s).
Proof.
  intros G E F.
  assert (L : u32 (d_tsize s * ty_heads (d_type s)) = Z.of_nat (length (d_cbuf s))).
  { destruct G as (G1 & G2 & _). pose proof (cyl_small (d_type s)). unfold cyl_size, blen in *. rewrite G1. rewrite <- G2 in *. apply u32_small. lia. }
  clear G F. revert L E. unfold seek_callback, after_seek, file_read, file_write, blen.
  destruct s as [fi cb la ty he st di dr at' fl ms fp ts nc cy tp rp cp cn dl tz rc sta dy kl a b sp].
  dv. intros L ->. rewrite L, Nat2Z.id.
  destruct (cy =? nc); [reflexivity|]. 
  assert (GL : forall g : list Z, (Z.of_nat (length (firstn (length cb) g)) <=? Z.of_nat (length cb)) = true).
  { intros g. rewrite <- (Nat.add_0_r (length cb)) at 2. apply got_le. }
  destruct dy; rewrite ?Z.leb_refl, ?firstn_all; dv; rewrite GL; reflexivity.
Qed.
