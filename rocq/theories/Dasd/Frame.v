(** Which bytes of the image change: proofs. *)
From Verif Require Export Dasd.Safe3.

(** *** What no operation but a seek changes, wherever the heads are *)

Definition pok {A} (P : A -> Prop) (r : res A) : Prop := forall a, r = Ok a -> P a.
Lemma pok_ok {A} (P : A -> Prop) a : P a -> pok P (Ok a).
Proof. intros H b E. injection E as <-. exact H. Qed.
Lemma pok_bind {A B} (Q : A -> Prop) (P : B -> Prop) r f :
  pok Q r -> (forall a, Q a -> pok P (f a)) -> pok P (bind r f).
Proof. intros H F b E. destruct r as [a| |]; try discriminate. cbn [bind] in E. exact (F a (H a eq_refl) b E). Qed.
Lemma pok_any {A B} (P : B -> Prop) (r : res A) f : (forall a, pok P (f a)) -> pok P (bind r f).
Proof. intros F b E. destruct r as [a| |]; try discriminate. exact (F a b E). Qed.

Definition keeps (s s' : dasd) : Prop :=
  d_file s' = d_file s /\ d_type s' = d_type s /\ d_tsize s' = d_tsize s /\ d_cyl s' = d_cyl s /\ d_fpos s' = d_fpos s
  /\ length (d_cbuf s') = length (d_cbuf s) /\ (d_ncyl s' = d_ncyl s \/ byte (d_ncyl s')).
(** ... and, unless something is written, *)
Definition reads (s s' : dasd) : Prop :=
  keeps s s' /\ d_cbuf s' = d_cbuf s /\ d_dirty s' = d_dirty s.
(** Reading marks the buffer. *)
Definition rreads (s s' : dasd) : Prop :=
  keeps s s' /\ d_cbuf s' = d_cbuf s /\ (d_dirty s = true -> d_dirty s' = true).
Lemma rreads_of s s' : reads s s' -> rreads s s'.
Proof. intros (A & B & C). repeat split; try assumption; try apply A. congruence. Qed.

Lemma keeps_refl s : keeps s s.
Proof. repeat split. left. reflexivity. Qed.
Lemma keeps_trans a b c : keeps a b -> keeps b c -> keeps a c.
Proof. unfold keeps. intuition (try congruence); first [left; congruence|right; congruence]. Qed.
Lemma reads_refl s : reads s s.
Proof. split; [apply keeps_refl|auto]. Qed.
Lemma reads_trans a b c : reads a b -> reads b c -> reads a c.
Proof. unfold reads, keeps. intuition (try congruence); first [left; congruence|right; congruence]. Qed.

Lemma reads_like s p q : reads s p -> d_file q = d_file p -> d_type q = d_type p -> d_tsize q = d_tsize p -> d_cyl q = d_cyl p ->
  d_fpos q = d_fpos p -> d_cbuf q = d_cbuf p -> d_dirty q = d_dirty p ->
  d_ncyl q = d_ncyl p \/ byte (d_ncyl q) -> reads s q.
Proof. unfold reads, keeps. intuition (try congruence); first [left; congruence|right; congruence]. Qed.
Lemma keeps_like s p q : keeps s p -> d_file q = d_file p -> d_type q = d_type p -> d_tsize q = d_tsize p -> d_cyl q = d_cyl p ->
  d_fpos q = d_fpos p -> length (d_cbuf q) = length (d_cbuf p) -> d_ncyl q = d_ncyl p \/ byte (d_ncyl q) -> keeps s q.
Proof. unfold keeps. intuition (try congruence); first [left; congruence|right; congruence]. Qed.

Ltac ref := first [reflexivity | left; reflexivity | right; assumption | right; unfold byte, new_tstart; ds; lia].
(** The shape of a state after assignments that do not matter here. *)
Ltac rlike := solve [apply reads_refl | assumption | eapply reads_like; [eassumption|ref..] | eapply reads_like; [apply reads_refl|ref..]].

Lemma load_pok s : pok (reads s) (load_lens s).
Proof. unfold load_lens. do 3 (apply pok_any; intro). apply pok_ok. rlike. Qed.
Lemma ulens_pok s u : pok (reads s) (upd_lens s u).
Proof. unfold upd_lens. do 3 (apply pok_any; intro). apply pok_ok. rlike. Qed.
Lemma xor_reads s p i v : reads s p -> reads s (ck_xor p i v).
Proof. intros H. unfold ck_xor. destruct (Z.odd i); rlike. Qed.
Lemma after_reads s p : reads s p -> reads s (after_count p).
Proof. intros H. unfold after_count. rlike. Qed.

Ltac pturn :=
  rewrite ?bind_bind; cbn [bind fst snd r_s];
  match goal with
  | |- pok _ (bind (load_lens ?s) _) => apply (pok_bind _ _ _ _ (load_pok s)); intros ? ?
  | |- pok _ (bind (upd_lens ?s ?u) _) => apply (pok_bind _ _ _ _ (ulens_pok s u)); intros ? ?
  | |- pok _ (bind (getb _ _) _) => apply pok_any; intro
  | |- pok _ (bind (rec_at _ _) _) => apply pok_any; intro
  | |- pok _ (bind (upd_rec _ _ _) _) => apply pok_any; intro
  | |- pok _ (bind (rec_end _) _) => apply pok_any; intros []
  | |- pok _ (bind (upd_end _ _) _) => apply pok_any; intros []
  | |- pok _ (Ok _) => apply pok_ok; cbn [fst snd r_s]
  | _ => split_if
  end.
Ltac rchain :=
  first [ rlike
        | apply xor_reads; rchain
        | apply after_reads; rchain
        | match goal with |- reads _ (set_tpos ?p _) => apply (reads_like _ p); try ref; rchain end
        | match goal with |- reads _ (set_rpos ?p _) => apply (reads_like _ p); try ref; rchain end
        | match goal with |- reads _ (set_ck0 ?p _) => apply (reads_like _ p); try ref; rchain end
        | match goal with |- reads _ (set_ck1 ?p _) => apply (reads_like _ p); try ref; rchain end
        | match goal with |- reads _ (set_count ?p _) => apply (reads_like _ p); try ref; rchain end
        | match goal with |- reads _ (set_state ?p _) => apply (reads_like _ p); try ref; rchain end
        | match goal with |- reads _ (set_ams ?p _) => apply (reads_like _ p); try ref; rchain end ].

Lemma read_case_reads s count data am ix : pok (fun r => reads s (r_s r)) (read_case s count data am ix).
Proof.
  unfold read_case. destruct (d_state s).
  - unfold read_index. repeat pturn; rchain.
  - unfold read_ha. repeat pturn; rchain.
  - unfold read_gap1. repeat pturn; rchain.
  - unfold read_cnt0. repeat pturn; rchain.
  - unfold read_gap. repeat pturn; rchain.
  - unfold read_am. repeat pturn; rchain.
  - unfold read_cnt1. repeat pturn; rchain.
  - unfold read_field. repeat pturn; rchain.
  - unfold read_gap. repeat pturn; rchain.
  - unfold read_field. repeat pturn; rchain.
  - unfold read_end, read_wrap. cbn [r_s]. repeat pturn; rchain.
  - apply pok_ok. rlike.
Qed.

Lemma read_reads s d a i : pok (fun r => rreads s (fst r)) (dasd_read_byte s d a i).
Proof.
  rewrite read_unfold. destruct (d_step s <? 13); [apply pok_ok, rreads_of; rlike|]. cbv zeta.
  match goal with |- context [if ?b then (?x, 1) else (?y, i)] =>
    assert (H : reads s (fst (if b then (x, 1) else (y, i)))) by (destruct b; cbn [fst]; rlike);
    destruct (if b then (x, 1) else (y, i)) as [s2 ix]; cbn [fst] in H end.
  set (s3 := set_dirty _ true).
  assert (H3 : rreads s s3) by (unfold reads, rreads, keeps in *; unfold s3; ds; intuition).
  apply (pok_bind (fun r => reads s3 (r_s r))); [apply read_case_reads|].
  intros r R.
  assert (X : rreads s (r_s r)).
  { destruct H3 as (K3 & B3 & D3). destruct R as (K & B & D). split; [exact (keeps_trans _ _ _ K3 K)|]. split; congruence || (intros E; rewrite D; auto). }
  unfold finish, read_wrap.
  destruct (r_go r); apply pok_ok; cbn [fst]; [|exact X].
  destruct (_ <=? _); cbn [r_s]; [|exact X]. destruct X as (K & B & D). split; [eapply keeps_like; [exact K|ref..]|]. split; [exact B|exact D].
Qed.

(** Writing does not mark the buffer. *)
Definition wkeeps (s s' : dasd) : Prop := keeps s s' /\ d_dirty s' = d_dirty s.
Lemma wkeeps_refl s : wkeeps s s.
Proof. split; [apply keeps_refl|auto]. Qed.
Lemma wkeeps_trans a b c : wkeeps a b -> wkeeps b c -> wkeeps a c.
Proof. unfold wkeeps, keeps. intuition (try congruence); first [left; congruence|right; congruence]. Qed.
Lemma wkeeps_like s p q : wkeeps s p -> d_file q = d_file p -> d_type q = d_type p -> d_tsize q = d_tsize p -> d_cyl q = d_cyl p ->
  d_fpos q = d_fpos p -> length (d_cbuf q) = length (d_cbuf p) -> d_dirty q = d_dirty p ->
  d_ncyl q = d_ncyl p \/ byte (d_ncyl q) -> wkeeps s q.
Proof. unfold wkeeps, keeps. intuition (try congruence); first [left; congruence|right; congruence]. Qed.
Ltac klike := solve [apply wkeeps_refl | assumption | eapply wkeeps_like; [eassumption|ref..] | eapply wkeeps_like; [apply wkeeps_refl|ref..]].
Lemma load_wkeeps s : pok (wkeeps s) (load_lens s).
Proof. unfold load_lens. do 3 (apply pok_any; intro). apply pok_ok. klike. Qed.
Lemma putb_keeps s i v : pok (wkeeps s) (putb s i v).
Proof.
  unfold putb. destruct (_ && _); [|discriminate]. apply pok_ok. repeat split; [ds; apply upd_length|left; reflexivity].
Qed.
Lemma put_pok {B} s p i v (P : B -> Prop) f : wkeeps s p -> (forall q, wkeeps s q -> pok P (f q)) -> pok P (bind (putb p i v) f).
Proof. intros H F. apply (pok_bind _ _ _ _ (putb_keeps p i v)). intros q K. apply F. exact (wkeeps_trans _ _ _ H K). Qed.
Lemma ff_keeps s : pok (wkeeps s) (rec_ff s).
Proof.
  unfold rec_ff, rec_put. apply (put_pok s); [apply wkeeps_refl|intros ? ?]. do 6 (apply (put_pok s); [assumption|intros ? ?]).
  intros x E. eapply wkeeps_trans; [eassumption|]. exact (putb_keeps _ _ _ _ E).
Qed.
Lemma ff_pok {B} s p (P : B -> Prop) f : wkeeps s p -> (forall q, wkeeps s q -> pok P (f q)) -> pok P (bind (rec_ff p) f).
Proof. intros H F. apply (pok_bind _ _ _ _ (ff_keeps p)). intros q K. apply F. exact (wkeeps_trans _ _ _ H K). Qed.
Lemma lens_pok {B} s p (P : B -> Prop) f : wkeeps s p -> (forall q, wkeeps s q -> pok P (f q)) -> pok P (bind (load_lens p) f).
Proof. intros H F. apply (pok_bind _ _ _ _ (load_wkeeps p)). intros q K. apply F. apply (wkeeps_trans _ _ _ H). exact K. Qed.
Lemma xor_keeps s p i v : wkeeps s p -> wkeeps s (ck_xor p i v).
Proof. intros H. unfold ck_xor. destruct (Z.odd i); klike. Qed.

Ltac kchain := solve [klike | apply xor_keeps; klike | (eapply wkeeps_like; [apply xor_keeps; eassumption|ref..])].
Ltac kturn s :=
  rewrite ?bind_bind; cbn [bind fst snd r_s];
  match goal with
  | |- pok _ (bind (load_lens _) _) => apply (lens_pok s); [kchain|intros ? ?]
  | |- pok _ (bind (rec_put _ _ _) _) => unfold rec_put at 1; apply (put_pok s); [kchain|intros ? ?]
  | |- pok _ (bind (putb _ _ _) _) => apply (put_pok s); [kchain|intros ? ?]
  | |- pok _ (bind (rec_ff _) _) => apply (ff_pok s); [kchain|intros ? ?]
  | |- pok _ (rec_ff _) => rewrite ff_bind
  | |- pok _ (bind (getb _ _) _) => apply pok_any; intro
  | |- pok _ (bind (rec_at _ _) _) => apply pok_any; intro
  | |- pok _ (Ok _) => apply pok_ok; cbn [fst snd]
  | _ => split_if
  end.
Lemma write_case_keeps s count data am : pok (fun r => wkeeps s (fst r)) (write_case s count data am).
Proof.
  unfold write_case. destruct (d_state s).
  - unfold write_index. repeat kturn s; kchain.
  - unfold write_ha. repeat kturn s; kchain.
  - unfold write_gap1. repeat kturn s; kchain.
  - unfold write_cnt0. repeat kturn s; kchain.
  - unfold write_gap2. repeat kturn s; kchain.
  - unfold write_am. repeat kturn s; kchain.
  - unfold write_cnt1. repeat kturn s; kchain.
  - unfold write_field. repeat kturn s; kchain.
  - unfold write_gap3. repeat kturn s; kchain.
  - unfold write_field. repeat kturn s; kchain.
  - repeat kturn s; kchain.
  - repeat kturn s; kchain.
Qed.
Lemma write_keeps s d a i : pok (fun r => wkeeps s (fst r)) (dasd_write_byte s d a i).
Proof.
  rewrite write_unfold. destruct (d_step s <? 13); [apply pok_ok; klike|]. cbv zeta.
  match goal with |- context [if ?b then (?x, 1) else (?y, i)] =>
    assert (H : wkeeps s (fst (if b then (x, 1) else (y, i)))) by (destruct b; cbn [fst]; klike);
    destruct (if b then (x, 1) else (y, i)) as [s2 ix]; cbn [fst] in H end.
  set (s3 := set_cpos _ _).
  assert (H3 : wkeeps s s3) by (unfold s3; klike).
  apply (pok_bind (fun r => wkeeps s3 (fst r))); [apply write_case_keeps|].
  intros [x y] R. cbn [fst] in R. pose proof (wkeeps_trans _ _ _ H3 R) as X.
  destruct (_ <=? _); apply pok_ok; cbn [fst]; klike.
Qed.
Lemma turn_reads s u : pok (fun r => reads s (fst r)) (update_turn s u).
Proof.
  unfold update_turn. destruct (u_state u).
  - repeat pturn; unfold upd_ck; try split_if; rchain.
  - repeat pturn; unfold upd_ck; try split_if; rchain.
  - repeat pturn; unfold upd_ck; try split_if; rchain.
  - repeat pturn; unfold upd_ck; try split_if; rchain.
  - repeat pturn; unfold upd_ck; try split_if; rchain.
  - repeat pturn; unfold upd_ck; try split_if; rchain.
  - repeat pturn; unfold upd_ck; try split_if; rchain.
  - repeat pturn; unfold upd_ck; try split_if; rchain.
  - repeat pturn; unfold upd_ck; try split_if; rchain.
  - repeat pturn; unfold upd_ck; try split_if; rchain.
  - repeat pturn; unfold upd_ck; try split_if; rchain.
  - repeat pturn; unfold upd_ck; try split_if; rchain.
Qed.
Lemma loop_reads n : forall s u, pok (fun r => reads s (fst r)) (update_loop n s u).
Proof.
  induction n as [|n IH]; intros s u; cbn [update_loop]; [apply pok_ok; rlike|].
  apply (pok_bind _ _ _ _ (turn_reads s u)). intros [s1 u1] R. cbn [fst] in R. intros r E.
  exact (reads_trans _ _ _ R (IH _ _ _ E)).
Qed.
Lemma update_reads s : pok (reads s) (dasd_update s).
Proof.
  unfold dasd_update. apply (pok_bind _ _ _ _ (loop_reads _ s _)). intros [s1 u1] R. cbn [fst] in R. apply pok_ok. rlike.
Qed.
Lemma step_reads s : reads s (fst (dasd_step s)).
Proof. unfold dasd_step. destruct (_ <? _); [cbn [fst]; rlike|]. cbv zeta. destruct (_ <=? _); cbn [fst]; rlike. Qed.

Lemma advance_reads s p : reads s p -> reads s (head_advance p).
Proof. intros H. unfold head_advance. destruct (_ <=? _); rlike. Qed.

Lemma control_reads s ft fc : pok (fun r => reads s (fst r)) (tags_control s ft fc).
Proof.
  unfold tags_control.
  apply (pok_bind (reads s)).
  { destruct (_ && _); [apply update_reads|apply pok_ok; rlike]. }
  intros s1 R1.
  apply (pok_bind (reads s)).
  { destruct (bit fc 64); [|apply pok_ok; exact R1].
    apply (pok_bind (reads s)).
    - destruct (_ && _); [|apply pok_ok; rlike]. intros p E. eapply reads_trans; [|exact (update_reads _ _ E)]. rlike.
    - intros p RP. apply pok_ok. destruct (is14 (d_type p)); [destruct (bit (d_flags p) 64)|]; rlike. }
  intros p GP.
  match goal with |- context [if ?b then (set_status ?x ?y, 1%nat) else ?z] =>
    set (pr := if b then (set_status x y, 1%nat) else z);
    assert (G2 : reads s (fst pr)) by (unfold pr; destruct b; cbn [fst]; rlike) end.
  clearbody pr. destruct pr as [x1 n1]. cbn [fst] in G2.
  match goal with |- context [if bit fc 16 then set_flags ?x ?v else _] =>
    assert (G3 : reads s (if bit fc 16 then set_flags x v else x)) by (destruct (bit fc 16); rlike);
    set (x2 := if bit fc 16 then set_flags x v else x) in *; clearbody x2 end.
  match goal with |- context [if bit fc 4 then set_flags ?x ?v else _] =>
    assert (G4 : reads s (if bit fc 4 then set_flags x v else x)) by (destruct (bit fc 4); rlike);
    set (x3 := if bit fc 4 then set_flags x v else x) in *; clearbody x3 end.
  match goal with |- context [if bit fc 2 then ?x else ?y] =>
    assert (G6 : reads s (fst (if bit fc 2 then x else y)))
      by (destruct (bit fc 2); cbn [fst]; rlike);
    destruct (if bit fc 2 then x else y) as [x4 n4]; cbn [fst] in G6 end.
  pose proof (advance_reads _ _ G6) as G7.
  apply pok_ok. cbn [fst].
  destruct (negb (is14 (d_type x4))); [destruct (bit ft 8)|destruct (bit fc 1); [destruct (bit (d_flags x4) 8)|]];
  solve [eapply reads_like; [exact G6|ref..] | eapply reads_like; [exact G7|ref..]].
Qed.
Lemma tags_reads s ft fc : byte fc -> pok (fun r => reads s (fst r)) (dasd_settags s ft fc).
Proof.
  intros BF. unfold dasd_settags. destruct (negb _); [apply pok_ok; rlike|].
  apply (pok_bind (fun r => reads s (fst r))).
  - destruct (bit ft 128); [apply control_reads|apply pok_ok; rlike].
  - intros [p n] R. cbn [fst] in R. apply pok_ok. cbn [fst].
    assert (R1 : reads s (if bit ft 64 then set_ncyl p fc else p)) by (destruct (bit ft 64); rlike).
    set (x1 := if bit ft 64 then set_ncyl p fc else p) in *. clearbody x1.
    assert (R2 : reads s (if bit ft 32 then tags_head x1 fc else x1)).
    { destruct (bit ft 32); [|exact R1]. unfold tags_head, new_tstart.
      destruct (is14 _); [rlike|]. destruct (bit (d_flags x1) 2); rlike. }
    destruct (bit ft 16); rlike.
Qed.

(** *** Seeks *)

Definition pack (s : dasd) : Prop :=
  d_tsize s = ty_tsize (d_type s) /\ Z.of_nat (length (d_cbuf s)) = cyl_size (d_type s)
  /\ byte (d_cyl s) /\ byte (d_ncyl s) /\ d_fpos s = 512 + d_cyl s * cyl_size (d_type s)
  /\ exists f, d_file s = Some f.

Lemma pack_mounted s : mounted s -> pack s.
Proof. unfold mounted, pack, byte. intuition. Qed.
Lemma pack_keeps s s' : pack s -> keeps s s' -> pack s'.
Proof.
  unfold pack, keeps. intros (A & B & C & D & E & f & F) (K1 & K2 & K3 & K4 & K5 & K6 & K7).
  rewrite K1, K2, K3, K4, K5, K6. repeat split; try assumption; try apply C; try (destruct K7 as [->|K7]; [apply D|apply K7]). eauto.
Qed.

Lemma cyl_room t c : byte c -> 0 <= cyl_size t * c /\ cyl_size t * c + 512 < 4294967296.
Proof. unfold byte. intros H. assert (0 < cyl_size t <= 235520) by (destruct t; vm_compute; split; congruence). nia. Qed.

Lemma seek_is' s f : d_tsize s = ty_tsize (d_type s) -> Z.of_nat (length (d_cbuf s)) = cyl_size (d_type s) -> d_file s = Some f ->
  seek_callback s = Ok (after_seek s).
Proof.
  intros G1 G2 E.
  assert (L : u32 (d_tsize s * ty_heads (d_type s)) = Z.of_nat (length (d_cbuf s))).
  { pose proof (cyl_small (d_type s)). unfold cyl_size in *. rewrite G1. rewrite <- G2 in *. apply u32_small. lia. }
  clear G1 G2. revert L E. unfold seek_callback, after_seek, file_read, file_write, blen.
  destruct s as [fi cb la ty he st di dr at' fl ms fp ts nc cy tp rp cp cn dl tz rc sta dy kl a b sp].
  dv. intros L ->. rewrite L, Nat2Z.id.
  destruct (cy =? nc); [reflexivity|]. 
  assert (GL : forall g : list Z, (Z.of_nat (length (firstn (length cb) g)) <=? Z.of_nat (length cb)) = true).
  { intros g. rewrite <- (Nat.add_0_r (length cb)) at 2. apply got_le. }
  destruct dy; rewrite ?Z.leb_refl, ?firstn_all; dv; rewrite GL; reflexivity.
Qed.

(** The file and the buffer after a seek. *)
Lemma seek_effect s : pack s ->
  exists s', seek_callback s = Ok s' /\ pack s' /\ d_type s' = d_type s /\ d_cyl s' = d_ncyl s /\ d_ncyl s' = d_ncyl s
  /\ image s' = (if (d_cyl s =? d_ncyl s) || negb (d_dirty s) then image s else over (image s) (Z.to_nat (d_fpos s)) (d_cbuf s))
  /\ d_cbuf s' = (if d_cyl s =? d_ncyl s then d_cbuf s else
       cyl_of (d_type s) (d_ncyl s) (image s') ++ skipn (length (cyl_of (d_type s) (d_ncyl s) (image s'))) (d_cbuf s))
  /\ (d_cyl s = d_ncyl s -> d_dirty s' = d_dirty s).
Proof.
  intros (A & B & C & D & E & f & F).
  exists (after_seek s). split; [exact (seek_is' s f A B F)|].
  destruct (cyl_room (d_type s) (d_ncyl s) D) as [R1 R2].
  assert (U : u32 (u32 (blen s * d_ncyl s) + 512) = 512 + d_ncyl s * cyl_size (d_type s)).
  { unfold blen. rewrite B. rewrite (u32_small (_ * _)) by lia. rewrite u32_small by lia. lia. }
  unfold after_seek. rewrite U. unfold image at 1. rewrite F.
  assert (LB : length (d_cbuf s) = Z.to_nat (cyl_size (d_type s))) by lia.
  destruct (d_cyl s =? d_ncyl s) eqn:EQ.
  - apply Z.eqb_eq in EQ. unfold pack, image, new_tstart. ds. rewrite F. cbn [orb]. repeat split; try assumption; try apply C; try apply D. eauto.
  - unfold pack, image, new_tstart. ds. rewrite F. cbn [orb]. rewrite LB.
    repeat split; try assumption; try apply D; try lia; try (eexists; reflexivity).
    + rewrite app_length, skipn_length, firstn_length. lia.
    + destruct (d_dirty s); reflexivity.
Qed.

Lemma over_nth f p b i : (i < length f)%nat -> ~ (p <= i < p + length b)%nat -> nth_error (over f p b) i = nth_error f i.
Proof.
  intros H N. unfold over.
  destruct (le_lt_dec p i) as [L|L].
  - rewrite nth_error_app2 by (rewrite firstn_length; lia). rewrite firstn_length.
    replace (repeat 0 (p - length f)) with (@nil Z) by (replace (p - length f)%nat with 0%nat by lia; reflexivity).
    cbn [app]. rewrite nth_error_app2 by lia. rewrite Nat.min_l by lia.
    rewrite <- (firstn_skipn (p + length b) f) at 2. rewrite nth_error_app2 by (rewrite firstn_length; lia).
    f_equal. rewrite firstn_length. lia.
  - rewrite nth_error_app1 by (rewrite firstn_length; lia).
    rewrite <- (firstn_skipn p f) at 2. rewrite nth_error_app1 by (rewrite firstn_length; lia). reflexivity.
Qed.
Lemma over_length f p b : (length f <= length (over f p b))%nat.
Proof. unfold over. rewrite !app_length, firstn_length, repeat_length, skipn_length. lia. Qed.

(** The part that was written reads back. *)
Lemma over_same f p b : firstn (length b) (skipn p (over f p b)) = b.
Proof.
  unfold over. rewrite app_assoc. rewrite skipn_app.
  assert (L : length (firstn p f ++ repeat 0 (p - length f)) = p) by (rewrite app_length, firstn_length, repeat_length; lia).
  rewrite L, Nat.sub_diag. rewrite skipn_all2 by lia. cbn [app skipn]. rewrite firstn_app, Nat.sub_diag, firstn_all. cbn [firstn].
  apply app_nil_r.
Qed.
Lemma nth_firstn {A} (l : list A) n i : (i < n)%nat -> nth_error (firstn n l) i = nth_error l i.
Proof. revert l i. induction n as [|n IH]; intros [|x l] [|i] H; cbn; try reflexivity; try lia. apply IH. lia. Qed.
Lemma nth_skipn {A} (l : list A) n i : nth_error (skipn n l) i = nth_error l (n + i).
Proof. revert l. induction n as [|n IH]; intros [|x l]; cbn; try reflexivity; [destruct i; reflexivity|apply IH]. Qed.
Lemma list_ext {A} (l m : list A) : (forall i, nth_error l i = nth_error m i) -> l = m.
Proof.
  revert m. induction l as [|x l IH]; intros [|y m] H; try reflexivity; try (specialize (H 0%nat); discriminate).
  pose proof (H 0%nat) as H0. cbn in H0. injection H0 as ->. f_equal. apply IH. intros i. exact (H (S i)).
Qed.
(** Writing another part does not matter to a part that is there. *)
Lemma over_other f p b q n : (q + n <= length f)%nat -> (q + n <= p \/ p + length b <= q)%nat ->
  firstn n (skipn q (over f p b)) = firstn n (skipn q f).
Proof.
  intros H D. apply list_ext. intros i.
  destruct (le_lt_dec n i) as [L|L].
  - transitivity (@None Z); [|symmetry]; apply nth_error_None; rewrite firstn_length; lia.
  - rewrite !nth_firstn, !nth_skipn by exact L. apply over_nth; lia.
Qed.

(** *** Histories *)

Lemma op_effect s o : pack s -> op_bytes o -> pok (fun s' => pack s' /\ d_type s' = d_type s
   /\ (o <> OSeek -> keeps s s') /\ (match o with OWrite _ _ _ => d_dirty s' = d_dirty s | OSeek => True | ORead _ _ _ => rreads s s' | _ => reads s s' end)) (do_op s o).
Proof.
  intros P B. destruct o as [d a i|d a i| |ft fc| |]; cbn [do_op op_bytes] in *.
  - apply (pok_bind _ _ _ _ (read_reads s d a i)). intros r R. apply pok_ok. split; [apply (pack_keeps s), R; exact P|]. split; [apply R|]. split; [intros _; apply R|exact R].
  - apply (pok_bind _ _ _ _ (write_keeps s d a i)). intros r [K D]. apply pok_ok. split; [apply (pack_keeps s), K; exact P|]. split; [apply K|]. split; [intros _; apply K|exact D].
  - apply pok_ok. pose proof (step_reads s) as R. split; [apply (pack_keeps s), R; exact P|]. split; [apply R|]. split; [intros _; apply R|exact R].
  - apply (pok_bind _ _ _ _ (tags_reads s ft fc (proj2 B))). intros r R. apply pok_ok. split; [apply (pack_keeps s), R; exact P|]. split; [apply R|]. split; [intros _; apply R|exact R].
  - intros s' E. pose proof (update_reads s s' E) as R. split; [apply (pack_keeps s), R; exact P|]. split; [apply R|]. split; [intros _; apply R|exact R].
  - destruct (seek_effect s P) as (s' & E & P' & T & _). rewrite E. apply pok_ok. split; [exact P'|]. split; [exact T|]. split; [congruence|exact I].
Qed.

(** Outside the cylinders that were under the arm. *)
Lemma flush_frame s i : pack s -> (Z.to_nat i < length (image s))%nat -> 0 <= i -> ~ in_cyl (d_type s) (d_cyl s) i ->
  nth_error (over (image s) (Z.to_nat (d_fpos s)) (d_cbuf s)) (Z.to_nat i) = nth_error (image s) (Z.to_nat i).
Proof.
  intros (A & B & C & D & E & f & F) L I N. apply over_nth; [exact L|]. unfold in_cyl, byte in *.
  pose proof (cyl_small (d_type s)). rewrite E. nia.
Qed.

Lemma frame_ops l : forall s s', pack s -> Forall op_bytes l -> do_ops s l = Ok s' ->
  pack s' /\ d_type s' = d_type s /\ In (d_cyl s') (visited s l)
  /\ (length (image s) <= length (image s'))%nat
  /\ forall i, 0 <= i < Z.of_nat (length (image s)) -> (forall c, In c (visited s l) -> ~ in_cyl (d_type s) c i) ->
     nth_error (image s') (Z.to_nat i) = nth_error (image s) (Z.to_nat i).
Proof.
  induction l as [|o l IH]; intros s s' P B E; cbn [do_ops visited] in *.
  - injection E as <-. split; [exact P|]. split; [reflexivity|]. split; [left; reflexivity|]. split; [lia|reflexivity].
  - inversion_clear B as [|? ? B1 B2].
    destruct (do_op s o) as [s1| |] eqn:E1; try discriminate. cbn [bind] in E.
    destruct (op_effect s o P B1 s1 E1) as (P1 & T1 & K1 & _).
    destruct (IH s1 s' P1 B2 E) as (P2 & T2 & V2 & L2 & F2).
    assert (X : (length (image s) <= length (image s1))%nat /\ forall i, 0 <= i < Z.of_nat (length (image s)) -> ~ in_cyl (d_type s) (d_cyl s) i ->
        nth_error (image s1) (Z.to_nat i) = nth_error (image s) (Z.to_nat i)).
    { destruct o; try (assert (KK : keeps s s1) by (apply K1; discriminate); unfold image; rewrite (proj1 KK); split; [lia|reflexivity]).
      cbn [do_op] in E1. destruct (seek_effect s P) as (s2 & E2 & _ & _ & _ & _ & I2 & _). rewrite E1 in E2. injection E2 as <-.
      rewrite I2. destruct (_ || _); [split; [lia|reflexivity]|]. split; [apply over_length|].
      intros i H N. apply flush_frame; try assumption; lia. }
    destruct X as [X1 X2].
    split; [exact P2|]. split; [congruence|]. split; [right; exact V2|]. split; [lia|].
    intros i H N. rewrite F2; [apply X2; [exact H|apply N; left; reflexivity]|lia|].
    intros c Hc. rewrite T1. apply N. right. exact Hc.
Qed.

Lemma detach_is s : pack s ->
  exists s', dasd_detach s = Ok (s', if d_dirty s then over (image s) (Z.to_nat (d_fpos s)) (d_cbuf s) else image s).
Proof.
  intros (A & B & C & D & E & f & F).
  assert (L : u32 (d_tsize s * ty_heads (d_type s)) = Z.of_nat (length (d_cbuf s))).
  { pose proof (cyl_small (d_type s)). unfold cyl_size in *. rewrite A. rewrite <- B in *. apply u32_small. lia. }
  unfold dasd_detach, file_write, image. rewrite F, L, Z.leb_refl, Nat2Z.id, firstn_all.
  destruct (d_dirty s); cbn [bind]; eexists; ds; rewrite ?F; reflexivity.
Qed.

(** *** What was written stays *)

Definition kept (c : Z) (B : list Z) (s : dasd) : Prop :=
  if d_cyl s =? c then d_cbuf s = B /\ (d_dirty s = true \/ cyl_of (d_type s) c (image s) = B)
  else cyl_of (d_type s) c (image s) = B.

Lemma cyl_of_over_same s : pack s -> cyl_of (d_type s) (d_cyl s) (over (image s) (Z.to_nat (d_fpos s)) (d_cbuf s)) = d_cbuf s.
Proof.
  intros (A & B & C & D & E & f & F). unfold cyl_of. rewrite <- E.
  replace (Z.to_nat (cyl_size (d_type s))) with (length (d_cbuf s)) by lia. apply over_same.
Qed.
Lemma cyl_of_over_other s c B : pack s -> 0 <= c -> d_cyl s <> c -> Z.of_nat (length B) = cyl_size (d_type s) ->
  cyl_of (d_type s) c (image s) = B ->
  cyl_of (d_type s) c (over (image s) (Z.to_nat (d_fpos s)) (d_cbuf s)) = B.
Proof.
  intros (A & LB & C & D & E & f & F) C0 N L H. rewrite <- H. unfold cyl_of in *. pose proof (cyl_small (d_type s)).
  assert (LL : length (firstn (Z.to_nat (cyl_size (d_type s))) (skipn (Z.to_nat (512 + c * cyl_size (d_type s))) (image s))) = length B) by (rewrite H; reflexivity).
  rewrite firstn_length, skipn_length in LL. unfold byte in *.
  apply over_other; [lia|]. rewrite E.
  destruct (Z.lt_ge_cases c (d_cyl s)) as [X|X].
  - left. assert ((c + 1) * cyl_size (d_type s) <= d_cyl s * cyl_size (d_type s)) by (apply Z.mul_le_mono_nonneg_r; lia). lia.
  - right. assert ((d_cyl s + 1) * cyl_size (d_type s) <= c * cyl_size (d_type s)) by (apply Z.mul_le_mono_nonneg_r; lia). lia.
Qed.

Lemma kept_op c B s o : pack s -> op_bytes o -> 0 <= c -> Z.of_nat (length B) = cyl_size (d_type s) ->
  match o with OWrite _ _ _ => d_cyl s <> c | _ => True end ->
  kept c B s -> pok (kept c B) (do_op s o).
Proof.
  intros P OB C0 LB W K s' E. destruct (op_effect s o P OB s' E) as (P' & T & KK & R).
  assert (NS : o <> OSeek \/ o = OSeek) by (destruct o; (left; discriminate) || (right; reflexivity)).
  destruct NS as [NS|NS].
  - specialize (KK NS). destruct KK as (K1 & K2 & K3 & K4 & K5 & K6). unfold kept, image in *. rewrite K1, K2, K4.
    destruct (d_cyl s =? c) eqn:EC; [|exact K].
    assert (RR : rreads s s') by (destruct o; try exact R; try (apply rreads_of; exact R); [lia|congruence]).
    destruct RR as (_ & R1 & R2). rewrite R1. destruct K as [KA [KB|KB]]; split; auto.
  - subst o. cbn [do_op] in E. destruct (seek_effect s P) as (s2 & E2 & _ & _ & C2 & _ & I2 & B2 & D2). rewrite E in E2. injection E2 as <-.
    unfold kept in *. rewrite T, C2.
    destruct (d_cyl s =? d_ncyl s) eqn:EN.
    + cbn [orb] in I2. rewrite I2, B2. apply Z.eqb_eq in EN. rewrite (D2 EN), <- EN. exact K.
    + assert (X : cyl_of (d_type s) c (image s') = B).
      { rewrite I2. cbn [orb]. destruct (d_cyl s =? c) eqn:EC.
        - apply Z.eqb_eq in EC. destruct K as [KA KB]. destruct (d_dirty s) eqn:DD; cbn [negb].
          + rewrite <- EC, <- KA. apply cyl_of_over_same. exact P.
          + destruct KB as [KB|KB]; [discriminate|exact KB].
        - destruct (d_dirty s); cbn [negb]; [|exact K]. apply cyl_of_over_other; try assumption. lia. }
      destruct (d_ncyl s =? c) eqn:EC; [|exact X].
      apply Z.eqb_eq in EC. split; [|right; exact X]. rewrite B2, EC, X.
      rewrite skipn_all2; [apply app_nil_r|]. destruct P as (_ & LC & _). lia.
Qed.

Lemma kept_ops l : forall c B s s', pack s -> Forall op_bytes l -> 0 <= c -> Z.of_nat (length B) = cyl_size (d_type s) ->
  no_write_at c s l -> kept c B s -> do_ops s l = Ok s' -> pack s' /\ d_type s' = d_type s /\ kept c B s'.
Proof.
  induction l as [|o l IH]; intros c B s s' P OB C0 LB W K E; cbn [do_ops no_write_at] in *.
  - injection E as <-. auto.
  - inversion_clear OB as [|? ? B1 B2]. destruct W as [W1 W2].
    destruct (do_op s o) as [s1| |] eqn:E1; try discriminate. cbn [bind] in E.
    destruct (op_effect s o P B1 s1 E1) as (P1 & T1 & _).
    destruct (IH c B s1 s' P1 B2 C0 ltac:(rewrite T1; exact LB) (W2 s1 eq_refl) (kept_op c B s o P B1 C0 LB W1 K s1 E1) E) as (X1 & X2 & X3).
    split; [exact X1|]. split; [congruence|exact X3].
Qed.

Lemma detach_kept c B s : pack s -> 0 <= c -> Z.of_nat (length B) = cyl_size (d_type s) -> kept c B s ->
  exists s' f, dasd_detach s = Ok (s', f) /\ cyl_of (d_type s) c f = B.
Proof.
  intros P C0 LB K. destruct (detach_is s P) as (s' & E). exists s'. eexists. split; [exact E|].
  unfold kept in K. destruct (d_cyl s =? c) eqn:EC.
  - apply Z.eqb_eq in EC. destruct K as [KA KB]. destruct (d_dirty s) eqn:DD.
    + rewrite <- EC, <- KA. apply cyl_of_over_same, P.
    + destruct KB as [KB|KB]; [discriminate|exact KB].
  - destruct (d_dirty s); [|exact K]. apply cyl_of_over_other; try assumption. lia.
Qed.

(** Without a read nothing ever reaches the image. *)
Lemma unread_ops l : forall s s', pack s -> Forall op_bytes l -> no_read l -> d_dirty s = false -> do_ops s l = Ok s' ->
  pack s' /\ d_dirty s' = false /\ image s' = image s.
Proof.
  induction l as [|o l IH]; intros s s' P OB NR D E; cbn [do_ops] in *.
  - injection E as <-. auto.
  - inversion_clear OB as [|? ? B1 B2]. inversion_clear NR as [|? ? N1 N2].
    destruct (do_op s o) as [s1| |] eqn:E1; try discriminate. cbn [bind] in E.
    destruct (op_effect s o P B1 s1 E1) as (P1 & T1 & K1 & R1).
    assert (X : d_dirty s1 = false /\ image s1 = image s).
    { destruct o; try contradiction; try (unfold image; rewrite (proj1 (K1 ltac:(discriminate))); split; [|reflexivity];
        first [congruence | destruct R1 as (_ & _ & ->); exact D]).
      cbn [do_op] in E1. destruct (seek_effect s P) as (s2 & E2 & _ & _ & _ & _ & I2 & _). rewrite E1 in E2. injection E2 as <-.
      rewrite D, orb_true_r in I2. split; [|exact I2].
      destruct P as (A & B & _ & _ & _ & f & F). rewrite (seek_is' s f A B F) in E1. injection E1 as <-. unfold after_seek.
      destruct (d_cyl s =? d_ncyl s); [exact D|reflexivity]. }
    destruct X as [X1 X2]. destruct (IH s1 s' P1 B2 N2 X1 E) as (Y1 & Y2 & Y3). split; [exact Y1|]. split; [exact Y2|]. congruence.
Qed.
