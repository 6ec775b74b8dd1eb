(** Every access to the cylinder buffer, continued: writing, positioning and seeking. *)
From Verif Require Export Dasd.Safe.

(** *** Reading *)

Lemma read_unfold s d a i : dasd_read_byte s d a i =
  if d_step s <? 13 then Ok (set_step s (d_step s + 1), mkRout 0 d a i)
  else
    let s1 := set_step s 0 in
    let '(s2, ix) := if ty_bpt (d_type s) + 1 <=? d_cpos s1
      then (set_count (set_tpos (set_cpos (set_state (new_tstart s1) PIndex) 65535) 0) 0, 1) else (s1, i) in
    let s3 := set_dirty (set_count (set_cpos s2 (u16 (d_cpos s2 + 1))) (u16 (d_count s2 + 1))) true in
    let* r := read_case s3 (d_count s2) d 0 ix in finish r.
Proof. reflexivity. Qed.

Definition rsame (s s' : dasd) : Prop :=
  same s s' /\ d_cbuf s' = d_cbuf s /\ (d_dirty s = true -> d_dirty s' = true).

Lemma wrap_sane r : geo (r_s r) -> placed 0 1 (r_s r) ->
  sane (r_s (read_wrap r)) /\ same (r_s r) (r_s (read_wrap r)) /\ d_cbuf (r_s (read_wrap r)) = d_cbuf (r_s r)
  /\ d_dirty (r_s (read_wrap r)) = d_dirty (r_s r).
Proof.
  intros G P. unfold read_wrap. pose proof (ty_facts (d_type (r_s r))).
  destruct (_ <=? _).
  - unfold placed, place in P. ds. repeat split; ds; try apply G; unfold sane, placed, place; ds; try lia.
  - split; [split; assumption|]. repeat split.
Qed.

Lemma read_sane s d a i : sane s -> okp (fun r => sane (fst r) /\ rsame s (fst r)) (dasd_read_byte s d a i).
Proof.
  intros [G P]. rewrite read_unfold. destruct (d_step s <? 13).
  - apply okp_ok. ds. repeat split; try reflexivity; try apply G; try apply P. intros H; exact H.
  - cbv zeta. destruct (ty_bpt (d_type s) + 1 <=? d_cpos (set_step s 0)) eqn:E.
    + set (s3 := set_dirty _ true).
      apply (okp_bind (fun r => rpost s3 (r_s r))).
      * apply wp_read.
        -- apply geo_new in G. exact G.
        -- unfold s3, placed, place; ds. pose proof (ty_facts (d_type s)). cbn. lia.
        -- reflexivity.
        -- ds. lia.
      * intros r (A & B & C & D & F). destruct (wrap_sane r D F) as (W1 & W2 & W3 & W4).
        unfold finish. unfold s3, new_tstart in *. revert A B C; ds; intros A B C.
        unfold same in *. revert A; ds; intros A.
        destruct (r_go r); apply okp_ok; ds; unfold rsame, same; (split; [assumption || (split; assumption)|]);
          intuition congruence.
    + set (s3 := set_dirty _ true).
      apply (okp_bind (fun r => rpost s3 (r_s r))).
      * pose proof (ty_facts (d_type s)) as TF. revert E; ds; intros E. apply wp_read.
        -- exact G.
        -- unfold s3, placed; ds. unfold placed in P. unfold place in *. 
           rewrite (u16_small (d_cpos s + 1)) by (destruct (d_state s); lia).
           destruct (d_state s); unfold u16 in *; Z.div_mod_to_equations; lia.
        -- reflexivity.
        -- ds. unfold placed, place in P. lia.
      * intros r (A & B & C & D & F). destruct (wrap_sane r D F) as (W1 & W2 & W3 & W4).
        unfold finish. unfold s3, new_tstart in *. revert A B C; ds; intros A B C.
        unfold same in *. revert A; ds; intros A.
        destruct (r_go r); apply okp_ok; ds; unfold rsame, same; (split; [assumption || (split; assumption)|]);
          intuition congruence.
Qed.

(** *** Writing *)

(** Only the track under the head changes. *)
Definition loc (ts tz : Z) (c b : list Z) : Prop :=
  length b = length c
  /\ forall i, ~ (ts <= Z.of_nat i < ts + tz) -> nth_error b i = nth_error c i.
Definition local (s : dasd) (b : list Z) : Prop := loc (d_tstart s) (d_tsize s) (d_cbuf s) b.
Definition wpost (s s' : dasd) : Prop :=
  same s s' /\ local s (d_cbuf s') /\ d_dirty s' = d_dirty s /\ d_tstart s' = d_tstart s /\ placed 0 2 s'.

Lemma loc_refl ts tz c : loc ts tz c c.
Proof. split; auto. Qed.
Lemma loc_put ts tz c i v : ts <= i < ts + tz -> 0 <= i -> loc ts tz c (upd c (Z.to_nat i) v).
Proof.
  intros H1 H2. split; [apply upd_length|]. intros j H. apply upd_other. lia.
Qed.
Lemma loc_trans ts tz a b c : loc ts tz a b -> loc ts tz b c -> loc ts tz a c.
Proof.
  intros [L1 H1] [L2 H2]. split; [congruence|]. intros i H. rewrite H2 by exact H. apply H1, H.
Qed.

Lemma put_okp {B} (P : B -> Prop) s i v f :
  d_tstart s <= i < d_tstart s + d_tsize s -> 0 <= i < blen s ->
  (forall b, loc (d_tstart s) (d_tsize s) (d_cbuf s) b -> okp P (f (set_cbuf s b))) -> okp P (bind (putb s i v) f).
Proof.
  intros H1 H2 F. unfold putb. unfold blen in H2. replace ((0 <=? i) && (i <? Z.of_nat (length (d_cbuf s)))) with true by lia.
  cbn [bind]. apply F. apply loc_put; lia.
Qed.
Lemma rput_okp {B} (P : B -> Prop) s i v f :
  d_tstart s <= d_rpos s + d_tstart s + i < d_tstart s + d_tsize s -> 0 <= d_rpos s + d_tstart s + i < blen s ->
  (forall b, loc (d_tstart s) (d_tsize s) (d_cbuf s) b -> okp P (f (set_cbuf s b))) -> okp P (bind (rec_put s i v) f).
Proof. intros H1 H2 F. unfold rec_put. apply put_okp; assumption. Qed.

Lemma ff_ok s : 0 <= d_rpos s -> d_rpos s + 8 <= d_tsize s -> 0 <= d_tstart s -> d_tstart s + d_tsize s <= blen s ->
  okp (fun s' => exists b, loc (d_tstart s) (d_tsize s) (d_cbuf s) b /\ s' = set_cbuf s b) (rec_ff s).
Proof.
  intros H1 H2 H3 H4.
  assert (R : rec_ff s = let* s := rec_put s 0 255 in let* s := rec_put s 1 255 in
  let* s := rec_put s 2 255 in let* s := rec_put s 3 255 in
  let* s := rec_put s 4 255 in let* s := rec_put s 5 255 in
  let* s := rec_put s 6 255 in let* s := rec_put s 7 255 in Ok s).
  { unfold rec_ff. do 7 (match goal with |- bind ?r _ = bind ?r _ => destruct r; cbn [bind]; try reflexivity end).
    match goal with |- ?r = bind ?r _ => destruct r; reflexivity end. }
  rewrite R. unfold blen in *.
  apply rput_okp; [ds; lia|unfold blen; ds; lia|intros b0 L0].
  apply rput_okp; [ds; lia|unfold blen; ds; destruct L0; lia|ds; intros b1 L1; ds]. pose proof (loc_trans _ _ _ _ _ L0 L1) as M1.
  apply rput_okp; [ds; lia|unfold blen; ds; destruct M1; lia|ds; intros b2 L2; ds]. pose proof (loc_trans _ _ _ _ _ M1 L2) as M2.
  apply rput_okp; [ds; lia|unfold blen; ds; destruct M2; lia|ds; intros b3 L3; ds]. pose proof (loc_trans _ _ _ _ _ M2 L3) as M3.
  apply rput_okp; [ds; lia|unfold blen; ds; destruct M3; lia|ds; intros b4 L4; ds]. pose proof (loc_trans _ _ _ _ _ M3 L4) as M4.
  apply rput_okp; [ds; lia|unfold blen; ds; destruct M4; lia|ds; intros b5 L5; ds]. pose proof (loc_trans _ _ _ _ _ M4 L5) as M5.
  apply rput_okp; [ds; lia|unfold blen; ds; destruct M5; lia|ds; intros b6 L6; ds]. pose proof (loc_trans _ _ _ _ _ M5 L6) as M6.
  apply rput_okp; [ds; lia|unfold blen; ds; destruct M6; lia|ds; intros b7 L7; ds]. pose proof (loc_trans _ _ _ _ _ M6 L7) as M7.
  apply okp_ok. exists b7. split; [exact M7|reflexivity].
Qed.
Lemma ff_okp {B} (P : B -> Prop) s f : 0 <= d_rpos s -> d_rpos s + 8 <= d_tsize s -> 0 <= d_tstart s -> d_tstart s + d_tsize s <= blen s ->
  (forall b, loc (d_tstart s) (d_tsize s) (d_cbuf s) b -> okp P (f (set_cbuf s b))) -> okp P (bind (rec_ff s) f).
Proof.
  intros H1 H2 H3 H4 F. apply (okp_bind _ _ _ _ (ff_ok s H1 H2 H3 H4)). intros a (b & L & ->). apply F, L.
Qed.

Definition write_case (s : dasd) (count data am : Z) : res (dasd * Z) :=
      match d_state s with
      | PIndex => Ok (write_index s data, data)
      | PHa => let* s := write_ha s count data in Ok (s, data)
      | PGap1 => let* s := write_gap1 s data in Ok (s, data)
      | PCnt0 => write_cnt0 s count data
      | PAm => let* s := write_am s data am in Ok (s, data)
      | PCnt1 => write_cnt1 s count data
      | PGap2 => Ok (write_gap2 s data, data)
      | PKey => let* s := write_field (d_klen s) PGap3 s data in Ok (s, data)
      | PGap3 => let* s := write_gap3 s data in Ok (s, data)
      | PData => let* s := write_field (d_dlen s) PAm s data in Ok (s, data)
      | PEnd => Ok (set_dlen (set_klen (set_count (set_tpos s (u16 (d_tpos s + 10))) 0) 0) 0, data)
      | PUnk => Ok (s, data)
      end.

Lemma ff_bind s : rec_ff s = let* s := rec_ff s in Ok s.
Proof. destruct (rec_ff s); reflexivity. Qed.


Ltac wside := unfold geo, blen, placed, place in *; ds;
  repeat match goal with L : loc _ _ _ _ |- _ => destruct L as [L _] end; lia.
Ltac wturn :=
  rewrite ?bind_bind; ds;
  first
  [ apply rput_okp; [wside|wside|ds; intros ? ?]
  | apply put_okp; [wside|wside|ds; intros ? ?]
  | apply ff_okp; [wside|wside|wside|wside|ds; intros ? ?]
  | apply rec_okp; [wside|intros ?]
  | apply lens_okp; [wside|wside|intros ? ?]
  | apply okp_ok; ds
  | split_if
  | match goal with |- okp _ (rec_ff _) => rewrite ff_bind end ].
Ltac wlocal :=
  solve [ apply loc_refl | assumption | eapply loc_trans; eassumption | eapply loc_trans; [eassumption|eapply loc_trans; eassumption]].
Ltac wleaf := unfold wpost, same, local, placed, place in *; ds;
  repeat match goal with |- _ /\ _ => split | |- _ -> _ => intro end;
  try reflexivity; try assumption; try wlocal; 
  try solve [repeat match goal with L : loc _ _ _ _ |- _ => clear L end; lia];
  try solve [repeat match goal with L : loc _ _ _ _ |- _ => clear L end; u16s; lia].

Lemma wp_write s count data am : geo s -> placed 1 2 s -> d_count s = u16 (count + 1) -> 0 <= count < 65536 -> d_tpos s < d_tsize s \/ d_state s = PIndex ->
  okp (fun r => wpost s (fst r)) (write_case s count data am).
Proof.
  intros G P C R TT. pose proof (ty_facts (d_type s)) as TF.
  destruct s as [fi cb la ty he st di dr at' fl ms fp ts nc cy tp rp cp cn dl tz rc sta dy kl a b sp].
  unfold write_case. 
  revert G P C R TF TT. ds. intros G P C R TF TT.
  unfold geo, placed, blen in G, P; revert G P; ds; intros G P.
  destruct sta; unfold place in P;
  unfold write_index, write_ha, write_gap1, write_cnt0, write_am, write_cnt1, write_gap2, write_gap3, write_field, after_count, sync_to, pos5,
    ck_init, ck_xor; ds.
  - repeat wturn; wleaf.
  - repeat wturn; wleaf.
  - repeat wturn; wleaf.
  - repeat wturn; wleaf.
  - repeat wturn; wleaf.
  - repeat wturn; wleaf.
  - repeat wturn; wleaf.
  - repeat wturn; wleaf.
  - repeat wturn; wleaf.
  - repeat wturn; wleaf.
  - repeat wturn; wleaf.
  - repeat wturn; wleaf.
Qed.
