(** Properties C30-C39: disk drives. *)
From Verif Require Import Base.Bits Dasd.Model Dasd.Spec Dasd.Read Dasd.Safe Dasd.Safe2 Dasd.Safe3 Dasd.Frame Dasd.Format Dasd.Attach Dasd.Run Dasd.Write Dasd.Record.

Lemma new_drive_empty t : no_pack (new_drive t).
Proof. unfold no_pack. destruct t; cbn; repeat split; try lia; repeat constructor; lia. Qed.

(** *** C30.  A file that is formatted because it is new, or because that was asked for, becomes a pack of the type of
    the drive, and any drive of that type takes it as such.  The size of the image is not known to the drive: it may
    be longer. *)
Theorem C30_formatted_pack_attaches_partial :
  forall s f init, no_pack s -> init = true \/ is_header f = false ->
  exists s', dasd_attach s f init = Ok s' /\ mounted s' /\ d_type s' = d_type s /\
  forall s2, no_pack s2 -> d_type s2 = d_type s ->
  exists s3, dasd_attach s2 (image s') false = Ok s3 /\ mounted s3 /\ d_type s3 = d_type s /\ image s3 = image s' /\
             d_cbuf s3 = cyl_of (d_type s) 0 (image s').
Proof.
  intros s f init NP H. assert (HF : is_header f && negb init = false) by (destruct H as [->| ->]; [apply andb_false_r|reflexivity]).
  destruct (attach_formats s f init NP HF) as (s' & lab & E & O & G & M & _). exists s'. split; [exact E|].
  destruct O as (O1 & O2 & _). split; [exact O2|]. split; [exact O1|]. intros s2 N2 T2. rewrite <- T2 in M.
  destruct (attach_made s2 _ lab N2 M) as (s3 & E3 & O3 & M3 & I3 & _ & _ & _ & B3 & _). exists s3. rewrite <- T2. auto.
Qed.
Print Assumptions C30_formatted_pack_attaches_partial.
Example C30_met : no_pack (new_drive T2314) /\ is_header [1; 2; 3] = false.
Proof. split; [apply new_drive_empty|reflexivity]. Qed.

(** The type is not found from the pack: the search expects one cylinder more than was written, so a drive of another
    type keeps its own type and takes the track size of the pack. *)
Theorem C30_other_type_refuted :
  forall s s2, no_pack s -> no_pack s2 ->
  exists s', dasd_attach s [] true = Ok s' /\
  exists s3, dasd_attach s2 (image s') false = Ok s3 /\ d_type s3 = d_type s2 /\ d_tsize s3 = ty_tsize (d_type s).
Proof.
  intros s s2 NP NP2. destruct (attach_formats s [] true NP eq_refl) as (s' & lab & E & O & G & M & L). exists s'. split; [exact E|].
  exact (attach_other s2 (d_type s) _ lab (proj1 NP2) M (L eq_refl)).
Qed.
Print Assumptions C30_other_type_refuted.
Example C30_other_met : no_pack (new_drive T2311) /\ no_pack (new_drive T2314) /\ ty_tsize T2311 <> ty_tsize T2314.
Proof. split; [apply new_drive_empty|]. split; [apply new_drive_empty|discriminate]. Qed.

(** *** C31.  A volume id of up to eight characters that EBCDIC has is the label of the drive that formats the pack, and
    of every drive of the type that gets the pack later. *)
Theorem C31_volume_id_survives :
  forall s f volid, no_pack s -> (length volid <= 8)%nat -> Forall label_char volid ->
  exists s', dasd_attach (dasd_setvolid s volid) f true = Ok s' /\ d_label s' = label_of volid /\
  forall s2, no_pack s2 -> d_type s2 = d_type s ->
  exists s3, dasd_attach s2 (image s') false = Ok s3 /\ d_label s3 = label_of volid.
Proof.
  intros s f volid (A & B & C & D & E) L F.
  assert (F' : Forall (fun c => 0 < c < 128) volid) by (eapply Forall_impl; [|exact F]; unfold label_char; intros; lia).
  destruct (label_of_ok volid F' L) as (LO & L8 & LF).
  assert (NP : no_pack (dasd_setvolid s volid)).
  { unfold no_pack. rewrite (setvolid_label s volid L). destruct s; cbn in *; auto. }
  destruct (attach_formats _ f true NP (andb_false_r _)) as (s' & lab & E1 & O & G & M & _). exists s'. split; [exact E1|].
  destruct G as (l & -> & LL & GL). rewrite (setvolid_label s volid L) in GL. rewrite LF in GL.
  assert (FF : Forall label_char (volid ++ repeat 32 (8 - length volid))).
  { apply Forall_app. split; [exact F|]. apply Forall_forall. intros x X. apply repeat_spec in X. subst x. unfold label_char. lia. }
  rewrite (GL FF) in *. rewrite <- app_assoc in *. fold (label_of volid) in *.
  split; [apply O|]. intros s2 N2 T2. replace (d_type (dasd_setvolid s volid)) with (d_type s2) in M by (rewrite T2; destruct s; reflexivity).
  destruct (attach_made s2 _ _ N2 M) as (s3 & E3 & O3). exists s3. split; [exact E3|]. apply O3.
Qed.
Print Assumptions C31_volume_id_survives.
Example C31_met : no_pack (new_drive T2311) /\ (length [83; 89; 83; 82; 69; 83] <= 8)%nat /\ Forall label_char [83; 89; 83; 82; 69; 83]
  /\ label_of [83; 89; 83; 82; 69; 83] = [83; 89; 83; 82; 69; 83; 32; 32; 0].
Proof. split; [apply new_drive_empty|]. split; [cbn; lia|]. split; [repeat constructor; lia|reflexivity]. Qed.

(** A character outside ASCII is an index outside the translation table. *)
Theorem C31_high_character_refuted :
  forall s f c r, no_pack s -> 128 <= c < 256 -> dasd_attach (dasd_setvolid s (c :: r)) f true = UB.
Proof.
  intros s f c r NP C. apply attach_ub; [destruct s; apply NP|].
  apply (vol_bytes_ub _ 0 c); try lia.
  - destruct s. reflexivity.
  - unfold dasd_setvolid, set_label, d_label. rewrite !app_length, repeat_length. change (firstn 8 (c :: r)) with (c :: firstn 7 r). cbn [length].
    pose proof (firstn_le_length 7 r). lia.
Qed.
Print Assumptions C31_high_character_refuted.
Example C31_high_met : no_pack (new_drive T2311) /\ 128 <= 196 < 256.
Proof. split; [apply new_drive_empty|lia]. Qed.

(** *** C32.  What is in the buffer once the cylinder was read from, reaches the image when the arm moves on or the pack
    is taken off, and is in the buffer again when the arm comes back, whatever is done elsewhere. *)
Theorem C32_data_persists_partial :
  forall s l s', mounted s -> d_dirty s = true -> Forall op_bytes l -> no_write_at (d_cyl s) s l -> do_ops s l = Ok s' ->
  (d_cyl s' = d_cyl s -> d_cbuf s' = d_cbuf s) /\
  (d_cyl s' <> d_cyl s -> cyl_of (d_type s) (d_cyl s) (image s') = d_cbuf s) /\
  exists s2 f, dasd_detach s' = Ok (s2, f) /\ cyl_of (d_type s) (d_cyl s) f = d_cbuf s.
Proof.
  intros s l s' M D B W E. pose proof (pack_mounted s M) as P.
  assert (C0 : 0 <= d_cyl s) by apply M. assert (LB : Z.of_nat (length (d_cbuf s)) = cyl_size (d_type s)) by apply M.
  destruct (kept_ops l (d_cyl s) (d_cbuf s) s s' P B C0 LB W) as (P' & T' & K'); [|exact E|].
  { unfold kept. rewrite Z.eqb_refl. auto. }
  destruct (detach_kept (d_cyl s) (d_cbuf s) s' P' C0 ltac:(rewrite T'; exact LB) K') as (s2 & f & ED & CD). rewrite T' in CD.
  unfold kept in K'. split; [|split; [|exists s2, f; auto]].
  - intros Q. rewrite Q, Z.eqb_refl in K'. apply K'.
  - intros Q. destruct (d_cyl s' =? d_cyl s) eqn:X; [lia|]. rewrite T' in K'. exact K'.
Qed.
Print Assumptions C32_data_persists_partial.
(** Cylinder 0 of a 2311, marked as changed: go to cylinder 1, select head 1 and write there. *)
Definition ex_drive (st : dpos) (cnt tp : Z) (dl : Z) (dirty : bool) : dasd :=
  mkDasd (Some []) (repeat 0 (Z.to_nat 40960)) (repeat 0 9) T2311 0 0 0 false false 0 false 512 0 0 0 tp 5 tp cnt dl 4096 0 st dirty 0 0 0 13.
Lemma ex_mounted st cnt tp dl dirty : mounted (ex_drive st cnt tp dl dirty).
Proof.
  unfold mounted, ex_drive. cbn [d_tsize d_type d_cbuf d_cyl d_ncyl d_fpos d_head d_file]. rewrite repeat_length.
  refine (conj eq_refl (conj _ (conj _ (conj _ (conj eq_refl (conj _ _)))))); try lia; try (vm_compute; split; congruence); try (eexists; reflexivity).
Qed.
Lemma ok_and {A} (r : res A) (P : A -> Prop) : match r with Ok a => P a | _ => False end -> exists a, r = Ok a /\ P a.
Proof. destruct r as [a| |]; try contradiction. eauto. Qed.
Definition ex_ops : list dop := [OTags 65 1; OSeek; OTags 33 1; OWrite 7 0 0].
Lemma nwa_cons c s o r : match o with OWrite _ _ _ => d_cyl s <> c | _ => True end ->
  (forall s', do_op s o = Ok s' -> no_write_at c s' r) -> no_write_at c s (o :: r).
Proof. intros A B. split; assumption. Qed.
Lemma run_cons s o r s1 : do_op s o = Ok s1 -> do_ops s (o :: r) = do_ops s1 r.
Proof. intros E. cbn [do_ops]. rewrite E. reflexivity. Qed.
Lemma ex_no_write s : match do_ops s [OTags 65 1; OSeek; OTags 33 1] with Ok s => d_cyl s = 1 | _ => False end -> no_write_at 0 s ex_ops.
Proof.
  intros X. apply nwa_cons; [exact I|]. intros s1 E1. apply nwa_cons; [exact I|]. intros s2 E2. apply nwa_cons; [exact I|]. intros s3 E3.
  rewrite (run_cons _ _ _ _ E1), (run_cons _ _ _ _ E2), (run_cons _ _ _ _ E3) in X. clear E1 E2 E3. change (d_cyl s3 = 1) in X.
  apply nwa_cons; [|intros; exact I]. rewrite X. discriminate.
Qed.
Example C32_met : mounted (ex_drive PData 0 100 4 true) /\ d_dirty (ex_drive PData 0 100 4 true) = true /\ Forall op_bytes ex_ops
  /\ no_write_at 0 (ex_drive PData 0 100 4 true) ex_ops /\ exists s', do_ops (ex_drive PData 0 100 4 true) ex_ops = Ok s' /\ d_cyl s' = 1.
Proof.
  split; [apply ex_mounted|]. split; [reflexivity|]. split; [unfold ex_ops, op_bytes, byte; repeat constructor; lia|]. split.
  - apply ex_no_write. vm_compute. reflexivity.
  - refine (ok_and _ (fun s => d_cyl s = 1) _). vm_compute. reflexivity.
Qed.

(** But writing does not mark the buffer, only reading does: as long as nothing is read, what is written never reaches
    the image. *)
Theorem C32_unread_writes_refuted :
  forall s l s', mounted s -> d_dirty s = false -> Forall op_bytes l -> no_read l -> do_ops s l = Ok s' ->
  image s' = image s /\ exists s2, dasd_detach s' = Ok (s2, image s).
Proof.
  intros s l s' M D B N E. destruct (unread_ops l s s' (pack_mounted s M) B N D E) as (P & D' & I). split; [exact I|].
  destruct (detach_is s' P) as (s2 & X). rewrite D', I in X. exists s2. exact X.
Qed.
Print Assumptions C32_unread_writes_refuted.
Example C32_unread_met :
  let s := ex_drive PData 0 100 4 false in
  mounted s /\ d_dirty s = false /\ Forall op_bytes [OWrite 7 0 0] /\ no_read [OWrite 7 0 0] /\
  match do_ops s [OWrite 7 0 0] with Ok s' => nth_error (d_cbuf s) 100 = Some 0 /\ nth_error (d_cbuf s') 100 = Some 7 | _ => False end.
Proof.
  cbv zeta. split; [apply ex_mounted|]. split; [reflexivity|]. split; [unfold op_bytes, byte; repeat constructor; lia|].
  split; [repeat constructor|]. vm_compute. split; reflexivity.
Qed.

(** *** C33.  Outside the cylinders that were under the arm the image stays as it was, and one write changes only bytes
    of the track under the head. *)
Theorem C33_only_visited_cylinders :
  forall s l s', mounted s -> Forall op_bytes l -> do_ops s l = Ok s' ->
  exists s2 f, dasd_detach s' = Ok (s2, f) /\
  forall i, 0 <= i < Z.of_nat (length (image s)) -> (forall c, In c (visited s l) -> ~ in_cyl (d_type s) c i) ->
  nth_error (image s') (Z.to_nat i) = nth_error (image s) (Z.to_nat i) /\ nth_error f (Z.to_nat i) = nth_error (image s) (Z.to_nat i).
Proof.
  intros s l s' M B E. destruct (frame_ops l s s' (pack_mounted s M) B E) as (P' & T' & V & L & F).
  destruct (detach_is s' P') as (s2 & ED). exists s2. eexists. split; [exact ED|]. intros i H N. specialize (F i H N). split; [exact F|].
  destruct (d_dirty s'); [|exact F]. rewrite flush_frame; [exact F|exact P'|lia|lia|]. rewrite T'. apply N, V.
Qed.
Print Assumptions C33_only_visited_cylinders.
Example C33_met : mounted (ex_drive PData 0 100 4 true) /\ Forall op_bytes ex_ops /\ exists s', do_ops (ex_drive PData 0 100 4 true) ex_ops = Ok s' /\ visited (ex_drive PData 0 100 4 true) ex_ops = [0; 0; 1; 1; 1].
Proof.
  split; [apply ex_mounted|]. split; [unfold ex_ops, op_bytes, byte; repeat constructor; lia|].
  refine (ok_and _ (fun _ => visited (ex_drive PData 0 100 4 true) ex_ops = [0; 0; 1; 1; 1]) _). vm_compute. reflexivity.
Qed.

(** After any history inside the bounds of C34, for the next write. *)
Theorem C33_only_the_track :
  forall s l s' d a i, mounted s -> at_index s -> Forall op_bytes l -> safe_run s l -> do_ops s l = Ok s' ->
  exists s2 o, dasd_write_byte s' d a i = Ok (s2, o) /\
  image s2 = image s' /\ length (d_cbuf s2) = length (d_cbuf s') /\
  forall j, 0 <= j -> ~ d_tstart s' <= j < d_tstart s' + d_tsize s' -> nth_error (d_cbuf s2) (Z.to_nat j) = nth_error (d_cbuf s') (Z.to_nat j).
Proof.
  intros s l s' d a i M A B R E. destruct (run_sane l s (start_sane s M A) (pack_mounted s M) B R) as (q & Q & S & P). rewrite E in Q. injection Q as <-.
  destruct (write_sane s' d a i S) as ([s2 o] & W & S2 & WS & (L & N) & _). exists s2, o. split; [exact W|]. cbn [fst] in *.
  split; [unfold image; rewrite (proj1 WS); reflexivity|]. split; [exact L|]. intros j J NJ. apply N. lia.
Qed.
Print Assumptions C33_only_the_track.

(** *** C34.  As long as only heads are selected that exist, and the place on the track is not looked for on the last head,
    everything stays inside the cylinder buffer. *)
Theorem C34_buffer_accesses_partial :
  forall s l, mounted s -> at_index s -> Forall op_bytes l -> safe_run s l -> exists s', do_ops s l = Ok s'.
Proof.
  intros s l M A B R. destruct (run_sane l s (start_sane s M A) (pack_mounted s M) B R) as (q & Q & _). eauto.
Qed.
Print Assumptions C34_buffer_accesses_partial.
(** Every freshly formatted pack is such a start; a seek, a head and a read are such a history. *)
Example C34_met :
  (forall t f, exists s, dasd_attach (new_drive t) f true = Ok s /\ mounted s /\ at_index s /\
     safe_run s [OTags 33 3; ORead 0 0 0; OWrite 5 0 0; OTags 65 2; OSeek]).
Proof.
  intros t f. destruct (attach_formats (new_drive t) f true (new_drive_empty t) (andb_false_r _)) as (s & lab & E & O & _).
  exists s. split; [exact E|]. destruct O as (T & M & I & C & TS & ST & B & N & H & D & SS & CP & CN & TP & SP & L).
  pose proof (ty_facts t) as TF. pose proof (cyl_small t) as CS.
  split; [exact M|]. split.
  { unfold at_index. rewrite SS, CP, CN, TP, TS, T. destruct M as (M1 & _). rewrite M1, T. cbn. change (d_type (new_drive t)) with t. unfold cyl_size. repeat split; try lia; nia. }
  cbn [safe_run op_safe]. repeat split; intros; try exact Logic.I; try discriminate.
  rewrite T. change (d_type (new_drive t)) with t. change (Z.land 3 15) with 3. destruct t; cbn; lia.
Qed.

(** The head number sent by the control unit is not checked: heads 10 to 15 of a 2311 are behind the buffer. *)
Definition ex_index (b : list Z) : dasd :=
  mkDasd (Some []) b (repeat 0 9) T2311 0 0 0 false false 0 false 512 0 0 0 0 0 0 0 0 4096 0 PIndex false 0 0 0 0.
Lemma ex_index_ok b : length b = Z.to_nat 40960 -> mounted (ex_index b) /\ at_index (ex_index b).
Proof.
  intros L. split.
  - unfold mounted, ex_index. cbn [d_tsize d_type d_cbuf d_cyl d_ncyl d_fpos d_head d_file]. rewrite L.
    refine (conj eq_refl (conj _ (conj _ (conj _ (conj eq_refl (conj _ _)))))); try lia; try (vm_compute; split; congruence); try (eexists; reflexivity).
  - unfold at_index. cbn. repeat split; lia.
Qed.
Theorem C34_head_refuted :
  exists s l, mounted s /\ at_index s /\ Forall op_bytes l /\ do_ops s l = UB.
Proof.
  exists (ex_index (repeat 0 (Z.to_nat 40960))), (OTags 33 10 :: repeat (ORead 0 0 0) 532).
  destruct (ex_index_ok (repeat 0 (Z.to_nat 40960)) (repeat_length _ _)) as [M A]. split; [exact M|]. split; [exact A|]. split.
  - constructor; [unfold op_bytes, byte; lia|]. apply Forall_forall. intros x X. apply repeat_spec in X. subst x. unfold op_bytes, byte. lia.
  - vm_compute. reflexivity.
Qed.
Print Assumptions C34_head_refuted.
(** Looking for the place in a long record adds the place inside the record twice, and leaves the buffer on the last head. *)
Definition last_track : list Z := repeat 0 (Z.to_nat 36864) ++ [0; 0; 0; 0; 0] ++ [0; 0; 0; 9; 0; 0; 9; 0] ++ repeat 0 (Z.to_nat 4083).
Theorem C34_update_refuted :
  exists s l, mounted s /\ at_index s /\ Forall op_bytes l /\ do_ops s l = UB.
Proof.
  exists (ex_index last_track), (OTags 33 9 :: repeat OStep (14 * 2300) ++ [OUpdate]).
  destruct (ex_index_ok last_track) as [M A]; [unfold last_track; rewrite !app_length, !repeat_length; cbn [length]; lia|]. split; [exact M|]. split; [exact A|]. split.
  - constructor; [unfold op_bytes, byte; lia|]. apply Forall_app. split; [|repeat constructor]. apply Forall_forall. intros x X. apply repeat_spec in X. subst x. exact I.
  - vm_compute. reflexivity.
Qed.
Print Assumptions C34_update_refuted.

(** *** C35.  Looking for the place after a drive was not listened to does not give the place where a listening drive is:
    the gaps and the check bytes are counted differently. *)
Definition plain_track : list Z := track_bytes [0; 0; 0; 0; 0] [mkCkd 0 0 0 0 0 [] (repeat 0 8)] ++ repeat 0 (Z.to_nat 40935).
Theorem C35_update_finds_place_refuted :
  exists s n, mounted s /\ at_index s /\
  exists s1 out s2, read_calls (14 * n) s = Ok (s1, out) /\ do_ops s (repeat OStep (14 * n) ++ [OUpdate]) = Ok s2 /\
  d_cpos s1 = d_cpos s2 /\ d_state s1 = PHa /\ d_state s2 = PIndex.
Proof.
  exists (ex_index plain_track), 37%nat. 
  destruct (ex_index_ok plain_track) as [M A]; [unfold plain_track; rewrite app_length, repeat_length; cbn [length track_bytes app concat map ckd_bytes count_of k_c0 k_c1 k_h0 k_h1 k_r k_key k_data repeat]; lia|].
  split; [exact M|]. split; [exact A|].
  assert (X : exists a, read_calls (14 * 37) (ex_index plain_track) = Ok a /\ (d_cpos (fst a) = 37 /\ d_state (fst a) = PHa)).
  { refine (ok_and _ (fun a => d_cpos (fst a) = 37 /\ d_state (fst a) = PHa) _). vm_compute. split; reflexivity. }
  assert (Y : exists a, do_ops (ex_index plain_track) (repeat OStep (14 * 37) ++ [OUpdate]) = Ok a /\ (d_cpos a = 37 /\ d_state a = PIndex)).
  { refine (ok_and _ (fun a => d_cpos a = 37 /\ d_state a = PIndex) _). vm_compute. split; reflexivity. }
  destruct X as ([s1 out] & X1 & X2 & X3), Y as (s2 & Y1 & Y2 & Y3). cbn [fst] in *.
  exists s1, out, s2. split; [exact X1|]. split; [exact Y1|]. split; [congruence|]. split; assumption.
Qed.
Print Assumptions C35_update_finds_place_refuted.

(** *** C36.  One revolution from the index delivers the home address and every record of the track, each field with its
    sync byte and check bytes, and nothing else; the next revolution delivers the same. *)
Theorem C36_track_reads_back :
  forall s ha r0 l, mounted s -> at_start s -> length ha = 5%nat -> Forall ckd_ok (r0 :: l) ->
  at_pos (d_cbuf s) (ty_tsize (d_type s) * d_head s) (track_bytes ha (r0 :: l)) -> fits (d_type s) r0 l ->
  exists s', read_calls (14 * Z.to_nat (ty_bpt (d_type s) + 1)) s = Ok (s', track_reads (d_type s) ha r0 l) /\
  mounted s' /\ at_start s' /\ d_type s' = d_type s /\ d_head s' = d_head s /\ d_cyl s' = d_cyl s /\ image s' = image s /\ d_cbuf s' = d_cbuf s.
Proof.
  intros s ha r0 l M (A1 & A2 & A3 & A4) L K P F. pose proof M as (M1 & M2 & _ & _ & _ & M6 & _). pose proof (ty_facts (d_type s)) as TF.
  assert (TS : u32 (d_tsize s * d_head s) = ty_tsize (d_type s) * d_head s).
  { rewrite M1. apply u32_small. clear - M6. pose proof (cyl_small (d_type s)) as CS; unfold cyl_size in CS; nia. }
  destruct (read_track s ha r0 l A1 A2 A3 A4 L K) as (tp & rp & kl & dl & a & b & rc & E); [|exact F|].
  { apply at_pos_cells; unfold new_tstart; cbn [d_tstart d_cbuf set_tstart]; rewrite TS; [destruct P; assumption|exact P]. }
  eexists. split; [exact E|]. unfold new_tstart. cbn. 
  destruct s as [fi cb la ty he st di dr at' fl ms fp ts nc cy tp0 rp0 cp0 cn0 dl0 tz rc0 sta dy kl0 a0 b0 sp]. split; [exact M|]. repeat split.
Qed.
Print Assumptions C36_track_reads_back.
Example C36_met : mounted (ex_index plain_track) /\ at_start (ex_index plain_track) /\ Forall ckd_ok [mkCkd 0 0 0 0 0 [] (repeat 0 8)] /\
  at_pos (d_cbuf (ex_index plain_track)) (ty_tsize T2311 * 0) (track_bytes [0; 0; 0; 0; 0] [mkCkd 0 0 0 0 0 [] (repeat 0 8)]) /\
  fits T2311 (mkCkd 0 0 0 0 0 [] (repeat 0 8)) [].
Proof.
  destruct (ex_index_ok plain_track) as [M A]; [unfold plain_track; rewrite app_length, repeat_length; cbn [length track_bytes app concat map ckd_bytes count_of k_c0 k_c1 k_h0 k_h1 k_r k_key k_data repeat]; lia|].
  split; [exact M|]. split; [repeat split|]. split.
  { repeat constructor; unfold byte; cbn; lia. }
  split; [split; [lia|reflexivity]|]. vm_compute. congruence.
Qed.

(** *** C37.  Updating the data of one record in place changes these bytes and no others: the track is then the one with
    the new data. *)
Theorem C37_update_in_place :
  forall s ha before r after d n x y, mounted s -> d_state s = PGap3 -> d_count s = 0 -> d_step s = 0 ->
  0 <= d_tstart s -> d_tstart s + d_tsize s <= cyl_size (d_type s) ->
  at_pos (d_cbuf s) (d_tstart s) (track_bytes ha (before ++ r :: after)) ->
  d_tpos s = Z.of_nat (length (ha ++ concat (map ckd_bytes before) ++ count_of r ++ k_key r)) -> d_dlen s = Z.of_nat (length (k_data r)) ->
  length d = length (k_data r) -> d_tpos s <= d_cpos s ->
  Z.of_nat n + 1 < ty_g2 (d_type s) -> d_cpos s + Z.of_nat n + Z.of_nat (length d) + 3 <= ty_bpt (d_type s) ->
  exists s', write_slots s (repeat 0 n ++ sync_byte (d_type s) :: d ++ [x; y]) = Ok s' /\ d_state s' = PAm /\
  at_pos (d_cbuf s') (d_tstart s') (track_bytes ha (before ++ with_data r d :: after)) /\
  only_changed (d_cbuf s) (d_cbuf s') (d_tstart s + d_tpos s) (Z.of_nat (length d)) /\ same_place s s' /\ mounted s'.
Proof.
  intros s ha before r after d n x y M ST C T T0 T1 P TP DL LD CP NG RM. pose proof M as (M1 & M2 & M3 & M4 & M5 & M6 & f & M7).
  pose proof (ty_facts (d_type s)) as TF.
  destruct (write_update s n d x y ST T C) as (s' & E & W & S' & T' & C' & P' & Q' & R' & B'); try lia; try assumption; [unfold blen; lia|].
  exists s'. split; [exact E|]. split; [exact S'|]. destruct W as (W1 & W2 & W3 & W4 & W5 & W6 & W7 & W8 & W9 & W10 & W11 & W12 & W13).
  destruct (track_split ha before r after d LD) as [SP1 SP2]. rewrite SP1 in P. rewrite SP2, W4, B'.
  assert (Q : Z.to_nat (d_tpos s + d_tstart s) = (Z.to_nat (d_tstart s) + length (ha ++ concat (map ckd_bytes before) ++ count_of r ++ k_key r))%nat) by lia.
  split; [rewrite Q; apply (puts_at _ _ _ (k_data r)); assumption|]. 
  assert (LB : (Z.to_nat (d_tpos s + d_tstart s) + length d <= length (d_cbuf s))%nat) by lia.
  split. 
  { split; [apply puts_length|]. intros i I NI. rewrite puts_nth by exact LB.
    replace (Nat.leb (Z.to_nat (d_tpos s + d_tstart s)) (Z.to_nat i) && Nat.ltb (Z.to_nat i) (Z.to_nat (d_tpos s + d_tstart s) + length d))%bool with false; [reflexivity|].
    symmetry. apply andb_false_iff. rewrite Nat.leb_gt, Nat.ltb_ge. lia. }
  split; [unfold same_place, image; rewrite W1, W2, W3, W4, W6; repeat split|].
  unfold mounted. rewrite W1, W2, W3, W5, W6, W7, W8, B', puts_length. exact M.
Qed.
Print Assumptions C37_update_in_place.
(** On a formatted track, reading up to the data of R0 leads to such a state. *)
Example C37_met :
  exists s out, read_calls (14 * 92) (ex_index plain_track) = Ok (s, out) /\ d_state s = PGap3 /\ d_count s = 0 /\ d_step s = 0 /\ d_tstart s = 0 /\ d_tpos s = 13 /\
  d_dlen s = 8 /\ d_cpos s = 92 /\ firstn 25 (d_cbuf s) = track_bytes [0; 0; 0; 0; 0] ([] ++ mkCkd 0 0 0 0 0 [] (repeat 0 8) :: []).
Proof.
  assert (X : exists a, read_calls (14 * 92) (ex_index plain_track) = Ok a /\ (d_state (fst a) = PGap3 /\ d_count (fst a) = 0 /\ d_step (fst a) = 0 /\ d_tstart (fst a) = 0
    /\ d_tpos (fst a) = 13 /\ d_dlen (fst a) = 8 /\ d_cpos (fst a) = 92 /\ firstn 25 (d_cbuf (fst a)) = track_bytes [0; 0; 0; 0; 0] ([] ++ mkCkd 0 0 0 0 0 [] (repeat 0 8) :: []))).
  { refine (ok_and _ (fun a => d_state (fst a) = PGap3 /\ d_count (fst a) = 0 /\ d_step (fst a) = 0 /\ d_tstart (fst a) = 0
    /\ d_tpos (fst a) = 13 /\ d_dlen (fst a) = 8 /\ d_cpos (fst a) = 92 /\ firstn 25 (d_cbuf (fst a)) = track_bytes [0; 0; 0; 0; 0] ([] ++ mkCkd 0 0 0 0 0 [] (repeat 0 8) :: [])) _).
    vm_compute. repeat split. }
  destruct X as ([s out] & X). exists s, out. exact X.
Qed.

(** *** C38.  A new record.  The second check byte of the count field is taken for the first byte of the gap: it may not be
    ones or the sync byte.  Then a record without a key is written, just behind the one before it, and nothing else changes. *)
Theorem C38_new_record_partial :
  forall s m r x y n u v, mounted s -> ckd_ok r -> k_key r = [] -> d_state s = PAm -> d_step s = 0 -> 0 <= d_count s < 65535 ->
  d_rpos s = d_tpos s -> 5 <= d_tpos s <= d_cpos s -> 0 <= d_tstart s -> d_tstart s + d_tsize s <= cyl_size (d_type s) ->
  d_cpos s + 16 + Z.of_nat n + Z.of_nat (length (k_data r)) <= ty_bpt (d_type s) -> Z.of_nat n + 1 < ty_g2 (d_type s) ->
  y <> 255 -> y <> sync_byte (d_type s) ->
  exists s', write_slots s (sent (d_type s) m r x y n u v) = Ok s' /\ d_state s' = PAm /\
  at_pos (d_cbuf s') (d_tstart s + d_tpos s) (ckd_bytes r) /\
  only_changed (d_cbuf s) (d_cbuf s') (d_tstart s + d_tpos s) (Z.of_nat (length (ckd_bytes r))) /\
  d_tpos s' = d_tpos s + Z.of_nat (length (ckd_bytes r)) /\ d_rpos s' = d_tpos s' /\ same_place s s' /\ mounted s'.
Proof.
  intros s m r x y n u v M K NK ST T CN RP TP T0 T1 RM NG Y1 Y2. pose proof M as (M1 & M2 & M3 & M4 & M5 & M6 & f & M7).
  pose proof (ty_facts (d_type s)) as TF.
  destruct (write_record s (d_tpos s) m r x y n u v (d_klen s) (d_dlen s) (d_cpos s) (d_count s) K NK) as (s' & E & W & S' & C' & T' & P' & R' & B'); try lia; try assumption.
  { unfold looks. cbn. repeat split; assumption. }
  { unfold blen. lia. }
  exists s'. split; [exact E|]. split; [exact S'|]. destruct W as (W1 & W2 & W3 & W4 & W5 & W6 & W7 & W8 & W9 & W10).
  assert (LR : Z.of_nat (length (ckd_bytes r)) = 8 + Z.of_nat (length (k_data r))) by (unfold ckd_bytes; rewrite !app_length, NK; cbn [count_of length]; lia).
  assert (LB : (Z.to_nat (d_tpos s + d_tstart s) + length (ckd_bytes r) <= length (d_cbuf s))%nat) by lia.
  rewrite B'. split.
  { split; [lia|]. replace (Z.to_nat (d_tstart s + d_tpos s)) with (Z.to_nat (d_tpos s + d_tstart s)) by lia. 
    apply list_ext. intros i. destruct (le_lt_dec (length (ckd_bytes r)) i) as [G|G].
    - rewrite (proj2 (nth_error_None (ckd_bytes r) i)) by exact G. apply nth_error_None. rewrite firstn_length. lia.
    - rewrite nth_firstn, nth_skipn, puts_nth by lia.
      replace (Nat.leb (Z.to_nat (d_tpos s + d_tstart s)) (Z.to_nat (d_tpos s + d_tstart s) + i) && Nat.ltb (Z.to_nat (d_tpos s + d_tstart s) + i) (Z.to_nat (d_tpos s + d_tstart s) + length (ckd_bytes r)))%bool with true;
        [f_equal; lia|]. symmetry. apply andb_true_iff. rewrite Nat.leb_le, Nat.ltb_lt. lia. }
  split. 
  { split; [apply puts_length|]. intros i I NI. rewrite puts_nth by exact LB.
    replace (Nat.leb (Z.to_nat (d_tpos s + d_tstart s)) (Z.to_nat i) && Nat.ltb (Z.to_nat i) (Z.to_nat (d_tpos s + d_tstart s) + length (ckd_bytes r)))%bool with false; [reflexivity|].
    symmetry. apply andb_false_iff. rewrite Nat.leb_gt, Nat.ltb_ge. lia. }
  split; [exact P'|]. split; [congruence|]. split; [unfold same_place, image; rewrite W1, W2, W3, W4, W6; repeat split|].
  unfold mounted. rewrite W1, W2, W3, W5, W6, W7, W8, B', puts_length. exact M.
Qed.
Print Assumptions C38_new_record_partial.
(** Behind R0 of a formatted track, with room for the record and with check bytes that do no harm. *)
Definition behind_r0 : dasd :=
  mkDasd (Some []) plain_track (repeat 0 9) T2311 0 0 0 false false 0 false 512 0 0 0 21 21 140 0 8 4096 0 PAm true 0 0 0 0.
Example C38_met : mounted behind_r0 /\ d_state behind_r0 = PAm /\ d_tpos behind_r0 = 21 /\
  ckd_ok (mkCkd 0 0 0 0 1 [] [7]) /\ snd (count_check 1 (mkCkd 0 0 0 0 1 [] [7])) = 126 /\
  d_cpos behind_r0 + 16 + 10 + 1 <= ty_bpt T2311.
Proof.
  destruct (ex_index_ok plain_track) as [M A]; [unfold plain_track; rewrite app_length, repeat_length; cbn [length track_bytes app concat map ckd_bytes count_of k_c0 k_c1 k_h0 k_h1 k_r k_key k_data repeat]; lia|].
  split; [exact M|]. split; [reflexivity|]. split; [reflexivity|]. split; [unfold ckd_ok, byte; cbn; repeat constructor; lia|]. split; [reflexivity|]. vm_compute. congruence.
Qed.

(** A second check byte of ones, the right one for the second record of a track with 256 bytes of data, makes the drive
    erase R0. *)
Theorem C38_new_record_refuted :
  exists s r0 m r, mounted s /\ ckd_ok r /\ d_state s = PAm /\ d_rpos s = d_tpos s /\ d_tpos s = 21 /\ d_tstart s = 0 /\
  at_pos (d_cbuf s) 0 (track_bytes [0; 0; 0; 0; 0] [r0]) /\
  exists s', write_slots s (sent (d_type s) m r (fst (count_check m r)) (snd (count_check m r)) 10 0 0) = Ok s' /\
  firstn 8 (skipn 5 (d_cbuf s)) = count_of r0 /\ firstn 8 (skipn 5 (d_cbuf s')) = repeat 255 8.
Proof.
  exists behind_r0, (mkCkd 0 0 0 0 0 [] (repeat 0 8)), 2, (mkCkd 0 0 0 0 2 [] (repeat 0 256)).
  destruct (ex_index_ok plain_track) as [M A]; [unfold plain_track; rewrite app_length, repeat_length; cbn [length track_bytes app concat map ckd_bytes count_of k_c0 k_c1 k_h0 k_h1 k_r k_key k_data repeat]; lia|].
  split; [exact M|]. split.
  { unfold ckd_ok, byte. cbn [k_c0 k_c1 k_h0 k_h1 k_r k_key k_data]. rewrite repeat_length. change (length (@nil Z)) with 0%nat.
    repeat split; try lia; try apply Forall_nil. apply Forall_forall. intros z Z0. apply repeat_spec in Z0. subst z. lia. vm_compute. discriminate. }
  do 4 (split; [reflexivity|]). split; [split; [lia|reflexivity]|].
  match goal with |- exists s', ?e = Ok s' /\ _ => assert (X : exists s', e = Ok s' /\ firstn 8 (skipn 5 (d_cbuf s')) = repeat 255 8) end.
  { refine (ok_and _ (fun s' => firstn 8 (skipn 5 (d_cbuf s')) = repeat 255 8) _). vm_compute. reflexivity. }
  destruct X as (s' & X1 & X2). exists s'. split; [exact X1|]. split; [reflexivity|exact X2].
Qed.
Print Assumptions C38_new_record_refuted.

(** *** C39.  Attaching an image: safe if the first records of the image lie inside the first cylinder. *)
Theorem C39_any_image_partial :
  forall s t f w, no_pack s -> d_type s = t -> f = header t ++ w -> (Z.to_nat (cyl_size t) <= length w)%nat -> Forall byte w ->
  four_records (firstn (Z.to_nat (cyl_size t)) w) ->
  exists s', dasd_attach s f false = Ok s' /\ mounted s' /\ d_type s' = t /\ image s' = f /\ d_cbuf s' = cyl_of t 0 f.
Proof. intros s t f w; exact (attach_any s f t w). Qed.
Print Assumptions C39_any_image_partial.
Example C39_met : no_pack (new_drive T2311) /\ length (repeat 0 (Z.to_nat 40960)) = Z.to_nat (cyl_size T2311) /\
  four_records (firstn (Z.to_nat (cyl_size T2311)) (repeat 0 (Z.to_nat 40960))).
Proof.
  split; [apply new_drive_empty|]. split; [rewrite repeat_length; reflexivity|].
  rewrite firstn_all2 by (rewrite repeat_length; apply Nat.le_refl).
  exists 13%nat, 21%nat, 29%nat. do 3 (split; [vm_compute; reflexivity|]). rewrite repeat_length. lia.
Qed.
(** A long R0 leads out of the buffer. *)
Theorem C39_any_image_refuted :
  exists s w, no_pack s /\ length w = Z.to_nat (cyl_size (d_type s)) /\ Forall byte w /\ dasd_attach s (header (d_type s) ++ w) false = UB.
Proof.
  exists (new_drive T2311), (repeat 0 11 ++ [255; 255] ++ repeat 0 (Z.to_nat 40947)). split; [apply new_drive_empty|]. split.
  { rewrite !app_length, !repeat_length. cbn [length]. change (cyl_size (d_type (new_drive T2311))) with 40960. lia. }
  split; [|vm_compute; reflexivity].
  apply Forall_app. split; [apply Forall_forall; intros z Z0; apply repeat_spec in Z0; subst z; unfold byte; lia|].
  apply Forall_app. split; [repeat constructor; unfold byte; lia|]. apply Forall_forall; intros z Z0; apply repeat_spec in Z0; subst z; unfold byte; lia.
Qed.
Print Assumptions C39_any_image_refuted.
