(** What is read from a track: proofs. *)
From Verif Require Export Dasd.Spec.

Lemma ty_facts t :
  ty_tsize t <= 7680 /\ ty_bpt t + 9 <= ty_tsize t /\ 0 < ty_heads t <= 46 /\ 3000 < ty_bpt t
  /\ 36 <= ty_g1 t <= 72 /\ 18 <= ty_g2 t <= 36 /\ 36 <= ty_g4 t <= 73.
Proof. destruct t; vm_compute; intuition discriminate. Qed.

Lemma u16_small x : 0 <= x < 65536 -> u16 x = x.
Proof. apply Z.mod_small. Qed.
Lemma u32_small x : 0 <= x < 4294967296 -> u32 x = x.
Proof. apply Z.mod_small. Qed.
Lemma u8_small x : 0 <= x < 256 -> u8 x = x.
Proof. apply Z.mod_small. Qed.

(** A drive that is reading: [s0] supplies what reading does not change. *)
Definition core (s0 : dasd) (st : dpos) (tp rp cp cnt kl dl a b rc : Z) (ms : bool) : dasd :=
  mkDasd (d_file s0) (d_cbuf s0) (d_label s0) (d_type s0) (d_head s0) (d_status s0) (d_diff s0) (d_dir s0)
    (d_attn s0) (d_flags s0) ms (d_fpos s0) (d_tstart s0) (d_ncyl s0) (d_cyl s0) tp rp cp cnt dl
    (d_tsize s0) rc st true kl a b 0.

Ltac ds := cbn [core d_file d_cbuf d_label d_type d_head d_status d_diff d_dir d_attn d_flags d_ams d_fpos d_tstart d_ncyl
  d_cyl d_tpos d_rpos d_cpos d_count d_dlen d_tsize d_rcnt d_state d_dirty d_klen d_ck0 d_ck1 d_step
  set_file set_cbuf set_label set_type set_head set_status set_diff set_dir set_attn set_flags set_ams set_fpos
  set_tstart set_ncyl set_cyl set_tpos set_rpos set_cpos set_count set_dlen set_tsize set_rcnt set_state
  set_dirty set_klen set_ck0 set_ck1 set_step bind fst snd r_s r_data r_am r_ix r_go o_ret o_data o_am o_ix].
(** Assignments to a reading drive. *)
Lemma core_state s0 st tp rp cp cnt kl dl a b rc ms v :
  set_state (core s0 st tp rp cp cnt kl dl a b rc ms) v = core s0 v tp rp cp cnt kl dl a b rc ms.
Proof. reflexivity. Qed.
Lemma core_tpos s0 st tp rp cp cnt kl dl a b rc ms v :
  set_tpos (core s0 st tp rp cp cnt kl dl a b rc ms) v = core s0 st v rp cp cnt kl dl a b rc ms.
Proof. reflexivity. Qed.
Lemma core_rpos s0 st tp rp cp cnt kl dl a b rc ms v :
  set_rpos (core s0 st tp rp cp cnt kl dl a b rc ms) v = core s0 st tp v cp cnt kl dl a b rc ms.
Proof. reflexivity. Qed.
Lemma core_cpos s0 st tp rp cp cnt kl dl a b rc ms v :
  set_cpos (core s0 st tp rp cp cnt kl dl a b rc ms) v = core s0 st tp rp v cnt kl dl a b rc ms.
Proof. reflexivity. Qed.
Lemma core_count s0 st tp rp cp cnt kl dl a b rc ms v :
  set_count (core s0 st tp rp cp cnt kl dl a b rc ms) v = core s0 st tp rp cp v kl dl a b rc ms.
Proof. reflexivity. Qed.
Lemma core_klen s0 st tp rp cp cnt kl dl a b rc ms v :
  set_klen (core s0 st tp rp cp cnt kl dl a b rc ms) v = core s0 st tp rp cp cnt v dl a b rc ms.
Proof. reflexivity. Qed.
Lemma core_dlen s0 st tp rp cp cnt kl dl a b rc ms v :
  set_dlen (core s0 st tp rp cp cnt kl dl a b rc ms) v = core s0 st tp rp cp cnt kl v a b rc ms.
Proof. reflexivity. Qed.
Lemma core_ck0 s0 st tp rp cp cnt kl dl a b rc ms v :
  set_ck0 (core s0 st tp rp cp cnt kl dl a b rc ms) v = core s0 st tp rp cp cnt kl dl v b rc ms.
Proof. reflexivity. Qed.
Lemma core_ck1 s0 st tp rp cp cnt kl dl a b rc ms v :
  set_ck1 (core s0 st tp rp cp cnt kl dl a b rc ms) v = core s0 st tp rp cp cnt kl dl a v rc ms.
Proof. reflexivity. Qed.
Lemma core_rcnt s0 st tp rp cp cnt kl dl a b rc ms v :
  set_rcnt (core s0 st tp rp cp cnt kl dl a b rc ms) v = core s0 st tp rp cp cnt kl dl a b v ms.
Proof. reflexivity. Qed.
Lemma core_ams s0 st tp rp cp cnt kl dl a b rc ms v :
  set_ams (core s0 st tp rp cp cnt kl dl a b rc ms) v = core s0 st tp rp cp cnt kl dl a b rc v.
Proof. reflexivity. Qed.
Lemma core_ck s0 st tp rp cp cnt kl dl a b rc ms :
  ck_init (core s0 st tp rp cp cnt kl dl a b rc ms) = core s0 st tp rp cp cnt kl dl 255 255 rc ms.
Proof. reflexivity. Qed.
Ltac dc := repeat (progress (ds; rewrite ?core_ck, ?core_state, ?core_tpos, ?core_rpos, ?core_cpos, ?core_count, ?core_klen, ?core_dlen, ?core_ck0, ?core_ck1, ?core_rcnt, ?core_ams)).


(** The call that transfers a byte. *)
Definition slot (s : dasd) : res (dasd * rout) := dasd_read_byte (set_step s 13) 0 0 0.
Definition outs (o : rout) : list Z := if o_ret o =? 1 then [o_data o] else [].

Lemma idle_call s d a i : d_step s < 13 ->
  dasd_read_byte s d a i = Ok (set_step s (d_step s + 1), mkRout 0 d a i).
Proof. intros H. unfold dasd_read_byte. unfold ty_rate. replace (d_step s <? 13) with true by lia. reflexivity. Qed.

Lemma read_calls_idle k : forall n s, d_step s = 13 - Z.of_nat k -> (k <= 13)%nat ->
  read_calls (k + n) s = read_calls n (set_step s 13).
Proof.
  induction k as [|k IH]; intros n s H K.
  - cbn [Nat.add]. f_equal. destruct s; ds. cbn in H. subst. reflexivity.
  - cbn [Nat.add read_calls]. rewrite idle_call by lia. ds.
    rewrite IH by (ds; lia). ds. cbn [Z.eqb app].
    replace (set_step (set_step s (d_step s + 1)) 13) with (set_step s 13) by reflexivity.
    destruct (read_calls n (set_step s 13)) as [[? ?]| |]; reflexivity.
Qed.

Lemma slots_S n s : d_step s = 0 ->
  read_calls (14 * S n) s =
  (let* a := slot s in
   let* b := read_calls (14 * n) (fst a) in
   Ok (fst b, outs (snd a) ++ snd b)).
Proof.
  intros H. replace (14 * S n)%nat with (13 + S (14 * n))%nat by lia.
  rewrite read_calls_idle by lia. reflexivity.
Qed.

Lemma slots_cons n s s1 o s2 l : slot s = Ok (s1, o) ->
  read_calls (14 * n) s1 = Ok (s2, l) -> d_step s = 0 -> read_calls (14 * S n) s = Ok (s2, outs o ++ l).
Proof. intros E1 E2 H. rewrite slots_S by exact H. rewrite E1. ds. rewrite E2. reflexivity. Qed.

Lemma slots_one s s1 o : slot s = Ok (s1, o) -> d_step s = 0 -> read_calls (14 * 1) s = Ok (s1, outs o).
Proof. intros E H. rewrite (slots_cons 0 s s1 o s1 [] E eq_refl H), app_nil_r. reflexivity. Qed.

Lemma calls_app n : forall m s s1 l1 s2 l2,
  read_calls n s = Ok (s1, l1) -> read_calls m s1 = Ok (s2, l2) ->
  read_calls (n + m) s = Ok (s2, l1 ++ l2).
Proof.
  induction n as [|n IH]; intros m s s1 l1 s2 l2 H1 H2; cbn [read_calls Nat.add] in *.
  - injection H1 as <- <-. exact H2.
  - destruct (dasd_read_byte s 0 0 0) as [a| |]; try discriminate. cbn [bind] in *.
    destruct (read_calls n (fst a)) as [[sb lb]| |] eqn:E; try discriminate. cbn [bind fst snd] in *.
    injection H1 as <- <-. rewrite (IH m _ _ _ _ _ E H2). cbn [bind fst snd]. rewrite app_assoc. reflexivity.
Qed.

Lemma slots_app n m s s1 l1 s2 l2 :
  read_calls (14 * n) s = Ok (s1, l1) -> read_calls (14 * m) s1 = Ok (s2, l2) ->
  read_calls (14 * (n + m)) s = Ok (s2, l1 ++ l2).
Proof. intros. rewrite Nat.mul_add_distr_l. eapply calls_app; eassumption. Qed.

Definition finish (r : rd) : res (dasd * rout) :=
  if r_go r then
    let r := read_wrap r in
    Ok (r_s r, mkRout (if d_ams (r_s r) then 0 else 1) (r_data r) (r_am r) (r_ix r))
  else Ok (r_s r, mkRout 0 (r_data r) (r_am r) (r_ix r)).

Definition case_of (s : dasd) (count : Z) : res rd :=
  match d_state s with
  | PIndex => read_index s count 0 0 0
  | PHa => read_ha s count 0 0 0
  | PGap1 => read_gap1 s count 0 0 0
  | PCnt0 => read_cnt0 s count 0 0 0
  | PAm => read_am s count 0 0 0
  | PCnt1 => read_cnt1 s count 0 0 0
  | PGap2 => read_gap PKey 2 s count 0 0 0
  | PKey => read_field (d_klen s) PGap3 s count 0 0 0
  | PGap3 => read_gap PData 1 s count 0 0 0
  | PData => read_field (d_dlen s) PAm s count 0 0 0
  | PEnd => Ok (read_end s 0 0 0)
  | PUnk => Ok (mkRd s 0 0 0 true)
  end.

Lemma slot_core s0 st tp rp cp cnt kl dl a b rc ms :
  0 <= cp <= ty_bpt (d_type s0) -> 0 <= cnt < 60000 ->
  slot (core s0 st tp rp cp cnt kl dl a b rc ms) =
  (let* r := case_of (core s0 st tp rp (cp + 1) (cnt + 1) kl dl a b rc ms) cnt in finish r).
Proof.
  intros H1 H2. pose proof (ty_facts (d_type s0)) as F. unfold slot, dasd_read_byte, ty_rate. ds.
  change (13 <? 13) with false. cbv iota beta zeta.
  replace (ty_bpt (d_type s0) + 1 <=? cp) with false by lia. cbv iota beta zeta. ds.
  rewrite !u16_small by lia. unfold case_of. ds. reflexivity.
Qed.

(** A case that ends with break before the index. *)
Lemma finish_go s d am ix :
  d_cpos s <= ty_bpt (d_type s) ->
  finish (mkRd s d am ix true) = Ok (s, mkRout (if d_ams s then 0 else 1) d am ix).
Proof.
  intros H. unfold finish, read_wrap. ds. replace (ty_bpt (d_type s) + 1 <=? d_cpos s) with false by lia. reflexivity.
Qed.
Lemma finish_no s d am ix : finish (mkRd s d am ix false) = Ok (s, mkRout 0 d am ix).
Proof. reflexivity. Qed.

(** The buffer at a place of the track. *)
Definition cell (s0 : dasd) (p v : Z) : Prop := getb s0 (p + d_tstart s0) = Ok v.
Lemma getb_core s0 st tp rp cp cnt kl dl a b rc ms p v : cell s0 p v ->
  getb (core s0 st tp rp cp cnt kl dl a b rc ms) (p + d_tstart s0) = Ok v.
Proof. intros H. exact H. Qed.
Lemma rec_core s0 st tp rp cp cnt kl dl a b rc ms i v : cell s0 (rp + i) v ->
  rec_at (core s0 st tp rp cp cnt kl dl a b rc ms) i = Ok v.
Proof.
  intros H. unfold rec_at. ds. replace (rp + d_tstart s0 + i) with (rp + i + d_tstart s0) by lia. exact H.
Qed.

(** *** Gaps *)

Definition gap_len (t : dtype) (st : dpos) : Z :=
  match st with PGap1 => ty_g1 t | PGap2 => ty_g2 t | PGap3 => ty_g2 t | PAm => ty_g2 t - 1 | _ => 0 end.

Lemma gap_slot s0 st tp rp cp cnt kl dl a b rc ms :
  0 <= cp <= ty_bpt (d_type s0) -> 0 <= cnt < gap_len (d_type s0) st ->
  exists o, slot (core s0 st tp rp cp cnt kl dl a b rc ms)
            = Ok (core s0 st tp rp (cp + 1) (cnt + 1) kl dl a b rc ms, o) /\ outs o = [].
Proof.
  intros H1 H2. pose proof (ty_facts (d_type s0)) as F.
  assert (cnt < 60000) by (destruct st; cbn in H2; lia).
  rewrite slot_core by lia.
  destruct st; cbn [gap_len] in H2; try lia; unfold case_of; ds; unfold read_gap1, read_gap, read_am; ds.
  - replace (cnt =? ty_g1 (d_type s0)) with false by lia. ds. rewrite finish_no. eexists; split; reflexivity.
  - replace (cnt =? ty_g2 (d_type s0)) with false by lia. ds. rewrite finish_no. eexists; split; reflexivity.
  - replace (cnt =? ty_g2 (d_type s0)) with false by lia.
    replace (ty_g2 (d_type s0) - 2 <? cnt) with false by lia. ds. rewrite finish_no. eexists; split; reflexivity.
  - replace (cnt =? ty_g2 (d_type s0)) with false by lia. ds. rewrite finish_no. eexists; split; reflexivity.
Qed.

Lemma gap_slots n : forall s0 st tp rp cp cnt kl dl a b rc ms,
  0 <= cp -> cp + Z.of_nat n <= ty_bpt (d_type s0) -> 0 <= cnt ->
  cnt + Z.of_nat n <= gap_len (d_type s0) st ->
  read_calls (14 * n) (core s0 st tp rp cp cnt kl dl a b rc ms)
  = Ok (core s0 st tp rp (cp + Z.of_nat n) (cnt + Z.of_nat n) kl dl a b rc ms, []).
Proof.
  induction n as [|n IH]; intros s0 st tp rp cp cnt kl dl a b rc ms H0 H1 H2 H3.
  - cbn [Z.of_nat Nat.mul read_calls]. rewrite !Z.add_0_r. reflexivity.
  - destruct (gap_slot s0 st tp rp cp cnt kl dl a b rc ms) as (o & E & O); [lia|lia|].
    assert (I := IH s0 st tp rp (cp + 1) (cnt + 1) kl dl a b rc ms ltac:(lia) ltac:(lia) ltac:(lia) ltac:(lia)).
    rewrite (slots_cons n _ _ _ _ _ E I eq_refl), O. cbn [app]. do 2 f_equal. f_equal; lia.
Qed.

(** The sync byte at the end of a gap. *)
Lemma sync_slot s0 st next v tp rp cp kl dl a b rc ms :
  (st = PGap2 /\ next = PKey /\ v = 2) \/ (st = PGap3 /\ next = PData /\ v = 1) ->
  0 <= cp < ty_bpt (d_type s0) -> ms = false ->
  exists o, slot (core s0 st tp rp cp (ty_g2 (d_type s0)) kl dl a b rc ms)
            = Ok (core s0 next tp rp (cp + 1) 0 kl dl 255 255 rc false, o)
            /\ outs o = [sync_of (d_type s0) v].
Proof.
  intros H1 H2 ->. pose proof (ty_facts (d_type s0)) as F. rewrite slot_core by lia.
  assert (E : case_of (core s0 st tp rp (cp + 1) (ty_g2 (d_type s0) + 1) kl dl a b rc false) (ty_g2 (d_type s0))
     = Ok (mkRd (core s0 next tp rp (cp + 1) 0 kl dl 255 255 rc false) (sync_of (d_type s0) v)
                (if is14 (d_type s0) then 1 else 0) 0 true)).
  { destruct H1 as [(-> & -> & ->)|(-> & -> & ->)]; unfold case_of; ds; unfold read_gap; ds; rewrite Z.eqb_refl;
    unfold ck_init; ds; destruct (d_type s0); reflexivity. }
  rewrite E. ds. rewrite finish_go by (ds; lia). ds. eexists; split; reflexivity.
Qed.

Lemma read_sync s0 st next v tp rp cp kl dl a b rc :
  (st = PGap2 /\ next = PKey /\ v = 2) \/ (st = PGap3 /\ next = PData /\ v = 1) ->
  0 <= cp -> cp + ty_g2 (d_type s0) < ty_bpt (d_type s0) ->
  read_calls (14 * Z.to_nat (ty_g2 (d_type s0) + 1)) (core s0 st tp rp cp 0 kl dl a b rc false)
  = Ok (core s0 next tp rp (cp + ty_g2 (d_type s0) + 1) 0 kl dl 255 255 rc false, [sync_of (d_type s0) v]).
Proof.
  intros H1 H2 H3. pose proof (ty_facts (d_type s0)) as F.
  set (g := ty_g2 (d_type s0)) in *.
  destruct (sync_slot s0 st next v tp rp (cp + g) kl dl a b rc false) as (o & E & O); [exact H1|lia|reflexivity|].
  assert (G := gap_slots (Z.to_nat g) s0 st tp rp cp 0 kl dl a b rc false ltac:(lia) ltac:(lia) ltac:(lia)
     ltac:(destruct H1 as [(-> & _)|(-> & _)]; cbn [gap_len]; lia)).
  replace (Z.to_nat (g + 1)) with (Z.to_nat g + 1)%nat by lia.
  replace (cp + Z.of_nat (Z.to_nat g)) with (cp + g) in G by lia.
  replace (0 + Z.of_nat (Z.to_nat g)) with g in G by lia.
  rewrite (slots_app _ 1 _ _ _ _ _ G (slots_one _ _ _ E eq_refl)), O. reflexivity.
Qed.

(** *** Fields *)

Definition cells (s0 : dasd) (p : Z) (l : list Z) : Prop :=
  forall i v, nth_error l i = Some v -> cell s0 (p + Z.of_nat i) v.
Lemma cells_cons s0 p x l : cells s0 p (x :: l) -> cell s0 p x /\ cells s0 (p + 1) l.
Proof.
  intros H. split.
  - specialize (H 0%nat x eq_refl). rewrite Z.add_0_r in H. exact H.
  - intros i v E. specialize (H (S i) v E). replace (p + 1 + Z.of_nat i) with (p + Z.of_nat (S i)) by lia. exact H.
Qed.
Lemma cells_app s0 p l m : cells s0 p (l ++ m) -> cells s0 p l /\ cells s0 (p + Z.of_nat (length l)) m.
Proof.
  intros H. split.
  - intros i v E. apply H. apply nth_error_app_l. exact E.
  - intros i v E. replace (p + Z.of_nat (length l) + Z.of_nat i) with (p + Z.of_nat (length l + i)) by lia.
    apply H. rewrite nth_error_app2 by lia. replace (length l + i - length l)%nat with i by lia. exact E.
Qed.

(** The check bytes while they are collected: the parity of the place decides. *)
Fixpoint collect (n : Z) (ab : Z * Z) (l : list Z) : Z * Z :=
  match l with
  | [] => ab
  | x :: r => collect (n + 1) (if Z.odd n then (fst ab, Z.lxor (snd ab) x) else (Z.lxor (fst ab) x, snd ab)) r
  end.
Lemma odd_succ n : Z.odd (n + 1) = negb (Z.odd n).
Proof. rewrite Z.odd_add. destruct (Z.odd n); reflexivity. Qed.
Lemma collect_check l n a b : Z.odd n = false -> collect n (a, b) l = check2 a b l.
Proof.
  assert (E : forall l, (forall n a b, Z.odd n = false -> collect n (a, b) l = check2 a b l) /\
                        (forall x n a b, Z.odd n = false -> collect n (a, b) (x :: l) = check2 a b (x :: l))).
  { clear. induction l as [|x l [IH1 IH2]]; split.
    - reflexivity.
    - intros x n a b H. cbn. rewrite H. reflexivity.
    - intros n a b H. apply IH2. exact H.
    - intros y n a b H. cbn [collect check2]. rewrite H, odd_succ, H. cbn [negb fst snd].
      rewrite IH1; [reflexivity|]. rewrite !odd_succ, H. reflexivity. }
  apply E.
Qed.

(** *** Key and data *)

Definition is_field (st next : dpos) (len kl dl : Z) : Prop :=
  (st = PKey /\ next = PGap3 /\ len = kl) \/ (st = PData /\ next = PAm /\ len = dl).

Lemma field_case st next len s0 tp rp cp cnt kl dl a b rc ms c : is_field st next len kl dl ->
  case_of (core s0 st tp rp cp cnt kl dl a b rc ms) c
  = read_field len next (core s0 st tp rp cp cnt kl dl a b rc ms) c 0 0 0.
Proof. intros [(-> & -> & ->)|(-> & -> & ->)]; reflexivity. Qed.

Lemma byte_slot s0 st next len tp rp cp cnt kl dl a b rc x :
  is_field st next len kl dl -> cell s0 tp x -> 0 <= tp < 60000 ->
  0 <= cp < ty_bpt (d_type s0) -> 0 <= cnt < len -> cnt < 60000 ->
  exists o, slot (core s0 st tp rp cp cnt kl dl a b rc false)
            = Ok (core s0 st (tp + 1) rp (cp + 1) (cnt + 1) kl dl
                    (fst (collect cnt (a, b) [x])) (snd (collect cnt (a, b) [x])) rc false, o)
            /\ outs o = [x].
Proof.
  intros H1 C T P1 P2 P3. rewrite slot_core by lia. rewrite (field_case st next len) by exact H1.
  unfold read_field. replace (cnt <? len) with true by lia. ds.
  unfold cell in C. unfold getb in *. ds. rewrite C. ds. unfold ck_xor. cbn [collect].
  destruct (Z.odd cnt); ds; rewrite u16_small by lia; rewrite finish_go by (ds; lia); ds; cbn [negb];
  eexists; split; reflexivity.
Qed.

Lemma field_bytes l : forall s0 st next len tp rp cp cnt kl dl a b rc,
  is_field st next len kl dl -> cells s0 tp l -> 0 <= tp ->
  0 <= cp -> cp + Z.of_nat (length l) <= ty_bpt (d_type s0) ->
  0 <= cnt -> cnt + Z.of_nat (length l) <= len -> tp + Z.of_nat (length l) < 60000 ->
  cnt + Z.of_nat (length l) < 60000 ->
  read_calls (14 * length l) (core s0 st tp rp cp cnt kl dl a b rc false)
  = Ok (core s0 st (tp + Z.of_nat (length l)) rp (cp + Z.of_nat (length l)) (cnt + Z.of_nat (length l)) kl dl
             (fst (collect cnt (a, b) l)) (snd (collect cnt (a, b) l)) rc false, l).
Proof.
  induction l as [|x l IH]; intros s0 st next len tp rp cp cnt kl dl a b rc F C T P1 P2 P3 P4 P5 P6.
  - cbn [length Z.of_nat Nat.mul read_calls collect fst snd]. rewrite !Z.add_0_r. reflexivity.
  - cbn [length] in *. destruct (cells_cons _ _ _ _ C) as [C1 C2].
    destruct (byte_slot s0 st next len tp rp cp cnt kl dl a b rc x F C1) as (o & E & O); try lia.
    assert (I := IH s0 st next len (tp + 1) rp (cp + 1) (cnt + 1) kl dl (fst (collect cnt (a, b) [x])) (snd (collect cnt (a, b) [x])) rc
       F C2 ltac:(lia) ltac:(lia) ltac:(lia) ltac:(lia) ltac:(lia) ltac:(lia) ltac:(lia)).
    rewrite (slots_cons _ _ _ _ _ _ E I eq_refl), O. cbn [app]. do 2 f_equal.
    rewrite <- surjective_pairing. cbn [collect]. f_equal; lia.
Qed.

(** The check bytes behind it; after the data the next record begins. *)
Lemma field_tail s0 st next len tp rp cp kl dl a b rc :
  is_field st next len kl dl -> 0 <= len < 59000 ->
  0 <= cp -> cp + tail_len (d_type s0) <= ty_bpt (d_type s0) ->
  read_calls (14 * Z.to_nat (tail_len (d_type s0))) (core s0 st tp rp cp len kl dl a b rc false)
  = Ok (core s0 next tp (match next with PAm => tp | _ => rp end) (cp + tail_len (d_type s0)) 0 kl dl a b rc false,
        a :: b :: tail14 (d_type s0)).
Proof.
  intros F L P1 P2.
  assert (N : read_field len next = fun s c => read_field len next s c) by reflexivity. clear N.
  assert (E0 : forall r, slot (core s0 st tp r cp len kl dl a b rc false)
     = Ok (core s0 st tp r (cp + 1) (len + 1) kl dl a b rc false, mkRout 1 a 0 0)).
  { intros r. unfold tail_len in P2. rewrite slot_core by lia. rewrite (field_case st next len) by exact F.
    unfold read_field. rewrite Z.ltb_irrefl, Z.eqb_refl. ds. cbn [negb]. rewrite finish_go by (ds; lia). reflexivity. }
  destruct (is14 (d_type s0)) eqn:I14.
  - assert (T : d_type s0 = T2314) by (destruct (d_type s0); try discriminate; reflexivity).
    assert (TL : tail_len (d_type s0) = 4) by (rewrite T; reflexivity). rewrite TL in *.
    set (rp' := match next with PAm => tp | _ => rp end).
    assert (E1 : slot (core s0 st tp rp (cp + 1) (len + 1) kl dl a b rc false)
     = Ok (core s0 st tp rp' (cp + 1 + 1) (len + 1 + 1) kl dl a b rc false, mkRout 1 b 0 0)).
    { rewrite slot_core by lia. rewrite (field_case st next len) by exact F.
      unfold read_field. replace (len + 1 <? len) with false by lia. replace (len + 1 =? len) with false by lia.
      rewrite Z.eqb_refl. ds. rewrite I14. unfold rp'. destruct F as [(-> & -> & _)|(-> & -> & _)]; ds;
      cbn [negb]; rewrite finish_go by (ds; lia); reflexivity. }
    assert (E2 : slot (core s0 st tp rp' (cp + 1 + 1) (len + 1 + 1) kl dl a b rc false)
     = Ok (core s0 st tp rp' (cp + 1 + 1 + 1) (len + 1 + 1 + 1) kl dl a b rc false, mkRout 1 1 0 0)).
    { rewrite slot_core by lia. rewrite (field_case st next len) by exact F.
      unfold read_field. replace (len + 1 + 1 <? len) with false by lia. replace (len + 1 + 1 =? len) with false by lia.
      replace (len + 1 + 1 =? len + 1) with false by lia. replace (len + 1 + 1 =? len + 2) with true by lia. ds.
      cbn [negb]; rewrite finish_go by (ds; lia); reflexivity. }
    assert (E3 : slot (core s0 st tp rp' (cp + 1 + 1 + 1) (len + 1 + 1 + 1) kl dl a b rc false)
     = Ok (core s0 next tp rp' (cp + 1 + 1 + 1 + 1) 0 kl dl a b rc false, mkRout 1 255 0 0)).
    { rewrite slot_core by lia. rewrite (field_case st next len) by exact F.
      unfold read_field. replace (len + 1 + 1 + 1 <? len) with false by lia. replace (len + 1 + 1 + 1 =? len) with false by lia.
      replace (len + 1 + 1 + 1 =? len + 1) with false by lia. replace (len + 1 + 1 + 1 =? len + 2) with false by lia.
      replace (len + 1 + 1 + 1 =? len + 3) with true by lia. ds.
      cbn [negb]; rewrite finish_go by (ds; lia); reflexivity. }
    change (Z.to_nat 4) with 4%nat.
    rewrite (slots_cons 3 _ _ _ _ _ (E0 rp) (slots_cons 2 _ _ _ _ _ E1 (slots_cons 1 _ _ _ _ _ E2
       (slots_one _ _ _ E3 eq_refl) eq_refl) eq_refl) eq_refl).
    rewrite T. cbn [outs o_ret o_data Z.eqb Pos.eqb app tail14]. do 2 f_equal. f_equal; lia.
  - assert (TL : tail_len (d_type s0) = 2) by (destruct (d_type s0); try discriminate; reflexivity). rewrite TL in *.
    set (rp' := match next with PAm => tp | _ => rp end).
    assert (E1 : slot (core s0 st tp rp (cp + 1) (len + 1) kl dl a b rc false)
     = Ok (core s0 next tp rp' (cp + 1 + 1) 0 kl dl a b rc false, mkRout 1 b 0 0)).
    { rewrite slot_core by lia. rewrite (field_case st next len) by exact F.
      unfold read_field. replace (len + 1 <? len) with false by lia. replace (len + 1 =? len) with false by lia.
      rewrite Z.eqb_refl. ds. rewrite I14. unfold rp'. destruct F as [(-> & -> & _)|(-> & -> & _)]; ds;
      cbn [negb]; rewrite finish_go by (ds; lia); reflexivity. }
    change (Z.to_nat 2) with 2%nat.
    rewrite (slots_cons 1 _ _ _ _ _ (E0 rp) (slots_one _ _ _ E1 eq_refl) eq_refl).
    assert (TE : tail14 (d_type s0) = []) by (destruct (d_type s0); try discriminate; reflexivity).
    rewrite TE. cbn [outs o_ret o_data Z.eqb Pos.eqb app]. do 2 f_equal. f_equal; lia.
Qed.

(** A whole field, from the gap in front of it to the gap behind it. *)
Lemma read_whole_field s0 st next len gst v l tp rp cp kl dl a b rc :
  is_field st next len kl dl ->
  (gst = PGap2 /\ st = PKey /\ v = 2) \/ (gst = PGap3 /\ st = PData /\ v = 1) ->
  len = Z.of_nat (length l) -> cells s0 tp l -> 0 <= tp ->
  0 <= cp -> cp + field_len (d_type s0) len <= ty_bpt (d_type s0) -> tp + len < 59000 ->
  exists ca cb,
  read_calls (14 * Z.to_nat (field_len (d_type s0) len)) (core s0 gst tp rp cp 0 kl dl a b rc false)
  = Ok (core s0 next (tp + len) (match next with PAm => tp + len | _ => rp end) (cp + field_len (d_type s0) len) 0 kl dl
          ca cb rc false,
        sync_of (d_type s0) v :: checked (d_type s0) l).
Proof.
  intros F G L C T P1 P2 P3. pose proof (ty_facts (d_type s0)) as TF.
  assert (TL : 2 <= tail_len (d_type s0)) by (unfold tail_len; lia).
  unfold field_len in *. set (g := ty_g2 (d_type s0)) in *. set (tl := tail_len (d_type s0)) in *.
  assert (S1 := read_sync s0 gst st v tp rp cp kl dl a b rc G P1 ltac:(fold g; lia)). fold g in S1.
  assert (S2 := field_bytes l s0 st next len tp rp (cp + g + 1) 0 kl dl 255 255 rc F C T ltac:(lia) ltac:(lia) ltac:(lia) ltac:(lia) ltac:(lia) ltac:(lia)).
  rewrite <- L in S2. rewrite Z.add_0_l in S2. rewrite collect_check in S2 by reflexivity.
  assert (S3 := field_tail s0 st next len (tp + len) rp (cp + g + 1 + len) kl dl (fst (check2 255 255 l)) (snd (check2 255 255 l)) rc
     F ltac:(lia) ltac:(lia) ltac:(fold tl; lia)). fold tl in S3.
  exists (fst (check2 255 255 l)), (snd (check2 255 255 l)).
  replace (Z.to_nat (g + 1 + len + tl)) with (Z.to_nat (g + 1) + (length l + Z.to_nat tl))%nat by lia.
  rewrite (slots_app _ _ _ _ _ _ _ S1 (slots_app _ _ _ _ _ _ _ S2 S3)).
  cbn [app]. do 2 f_equal. f_equal; lia.
Qed.

(** *** Count fields *)

Lemma cnt_slot s0 st tp rp cp cnt kl dl a b rc x :
  (st = PCnt0 /\ 1 <= cnt) \/ (st = PCnt1 /\ 2 <= cnt) -> cnt <= 8 -> cell s0 (rp + (cnt - 1)) x -> 0 <= tp < 60000 ->
  0 <= cp < ty_bpt (d_type s0) ->
  exists o, slot (core s0 st tp rp cp cnt kl dl a b rc false)
            = Ok (core s0 st (tp + 1) rp (cp + 1) (cnt + 1) kl dl
                    (fst (collect (cnt - 1) (a, b) [x])) (snd (collect (cnt - 1) (a, b) [x])) rc false, o)
            /\ outs o = [x].
Proof.
  intros H1 H2 C T P. rewrite slot_core by lia.
  assert (E : case_of (core s0 st tp rp (cp + 1) (cnt + 1) kl dl a b rc false) cnt
     = Ok (mkRd (core s0 st (tp + 1) rp (cp + 1) (cnt + 1) kl dl
                    (fst (collect (cnt - 1) (a, b) [x])) (snd (collect (cnt - 1) (a, b) [x])) rc false) x 0 0 true)).
  { destruct H1 as [(-> & H1)|(-> & H1)]; unfold case_of; ds; unfold read_cnt0, read_cnt1;
    replace (cnt =? 0) with false by lia; try (replace (cnt =? 1) with false by lia);
    replace (cnt <=? 8) with true by lia; rewrite (rec_core _ _ _ _ _ _ _ _ _ _ _ _ _ x) by exact C; ds;
    unfold ck_xor; cbn [collect]; destruct (Z.odd (cnt - 1)); ds; rewrite u16_small by lia; reflexivity. }
  rewrite E. ds. rewrite finish_go by (ds; lia). eexists; split; reflexivity.
Qed.

Lemma cnt_slots l : forall s0 st tp rp cp cnt kl dl a b rc,
  (st = PCnt0 /\ 1 <= cnt) \/ (st = PCnt1 /\ 2 <= cnt) -> cnt + Z.of_nat (length l) <= 9 ->
  cells s0 (rp + (cnt - 1)) l -> 0 <= tp -> tp + Z.of_nat (length l) < 60000 ->
  0 <= cp -> cp + Z.of_nat (length l) <= ty_bpt (d_type s0) ->
  read_calls (14 * length l) (core s0 st tp rp cp cnt kl dl a b rc false)
  = Ok (core s0 st (tp + Z.of_nat (length l)) rp (cp + Z.of_nat (length l)) (cnt + Z.of_nat (length l)) kl dl
             (fst (collect (cnt - 1) (a, b) l)) (snd (collect (cnt - 1) (a, b) l)) rc false, l).
Proof.
  induction l as [|x l IH]; intros s0 st tp rp cp cnt kl dl a b rc H C1 C T1 T2 P1 P2.
  - cbn [length Z.of_nat Nat.mul read_calls collect fst snd]. rewrite !Z.add_0_r. reflexivity.
  - cbn [length] in *. destruct (cells_cons _ _ _ _ C) as [C2 C3].
    destruct (cnt_slot s0 st tp rp cp cnt kl dl a b rc x H ltac:(lia) C2) as (o & E & O); try lia.
    replace (rp + (cnt - 1) + 1) with (rp + (cnt + 1 - 1)) in C3 by lia.
    assert (H' : (st = PCnt0 /\ 1 <= cnt + 1) \/ (st = PCnt1 /\ 2 <= cnt + 1))
      by (destruct H as [[? ?]|[? ?]]; [left|right]; split; auto; lia).
    assert (I := IH s0 st (tp + 1) rp (cp + 1) (cnt + 1) kl dl (fst (collect (cnt - 1) (a, b) [x]))
       (snd (collect (cnt - 1) (a, b) [x])) rc H' ltac:(lia) C3 ltac:(lia) ltac:(lia) ltac:(lia) ltac:(lia)).
    rewrite (slots_cons _ _ _ _ _ _ E I eq_refl), O. cbn [app]. do 2 f_equal.
    rewrite <- surjective_pairing. cbn [collect]. replace (cnt + 1 - 1) with (cnt - 1 + 1) by lia. f_equal; lia.
Qed.

Lemma cnt_tail s0 st tp rp cp kl dl a b rc :
  st = PCnt0 \/ st = PCnt1 -> 0 <= cp -> cp + tail_len (d_type s0) <= ty_bpt (d_type s0) ->
  read_calls (14 * Z.to_nat (tail_len (d_type s0))) (core s0 st tp rp cp 9 kl dl a b rc false)
  = Ok (core s0 (if kl =? 0 then PGap3 else PGap2) tp rp (cp + tail_len (d_type s0)) 0 kl dl a b rc false,
        a :: b :: tail14 (d_type s0)).
Proof.
  intros F P1 P2.
  assert (TL2 : 2 <= tail_len (d_type s0)) by (unfold tail_len; lia).
  assert (E0 : slot (core s0 st tp rp cp 9 kl dl a b rc false)
     = Ok (core s0 st tp rp (cp + 1) 10 kl dl a b rc false, mkRout 1 a 0 0)).
  { rewrite slot_core by lia. destruct F as [->| ->]; unfold case_of; ds; unfold read_cnt0, read_cnt1; ds;
    cbn [Z.eqb Z.leb Pos.eqb Z.compare Pos.compare Pos.compare_cont]; ds; cbn [negb];
    rewrite finish_go by (ds; lia); reflexivity. }
  destruct (is14 (d_type s0)) eqn:I14.
  - assert (T : d_type s0 = T2314) by (destruct (d_type s0); try discriminate; reflexivity).
    assert (TL : tail_len (d_type s0) = 4) by (rewrite T; reflexivity). rewrite TL in *.
    assert (E1 : slot (core s0 st tp rp (cp + 1) 10 kl dl a b rc false)
       = Ok (core s0 st tp rp (cp + 2) 11 kl dl a b rc false, mkRout 1 b 0 0)).
    { rewrite slot_core by lia. replace (cp + 1 + 1) with (cp + 2) by lia.
      destruct F as [->| ->]; unfold case_of; ds; unfold read_cnt0, read_cnt1; ds;
      cbn [Z.eqb Z.leb Pos.eqb Z.compare Pos.compare Pos.compare_cont]; ds; rewrite I14; ds; cbn [negb];
      rewrite finish_go by (ds; lia); reflexivity. }
    assert (E2 : slot (core s0 st tp rp (cp + 2) 11 kl dl a b rc false)
       = Ok (core s0 st tp rp (cp + 3) 12 kl dl a b rc false, mkRout 1 1 0 0)).
    { rewrite slot_core by lia. replace (cp + 2 + 1) with (cp + 3) by lia.
      destruct F as [->| ->]; unfold case_of; ds; unfold read_cnt0, read_cnt1; ds;
      cbn [Z.eqb Z.leb Pos.eqb Z.compare Pos.compare Pos.compare_cont]; ds; cbn [negb];
      rewrite finish_go by (ds; lia); reflexivity. }
    assert (E3 : slot (core s0 st tp rp (cp + 3) 12 kl dl a b rc false)
       = Ok (core s0 (if kl =? 0 then PGap3 else PGap2) tp rp (cp + 4) 0 kl dl a b rc false, mkRout 1 255 0 0)).
    { rewrite slot_core by lia. replace (cp + 3 + 1) with (cp + 4) by lia.
      destruct F as [->| ->]; unfold case_of; ds; unfold read_cnt0, read_cnt1; ds;
      cbn [Z.eqb Z.leb Pos.eqb Z.compare Pos.compare Pos.compare_cont]; unfold after_count; ds; cbn [negb];
      rewrite finish_go by (ds; lia); reflexivity. }
    change (Z.to_nat 4) with 4%nat.
    rewrite (slots_cons 3 _ _ _ _ _ E0 (slots_cons 2 _ _ _ _ _ E1 (slots_cons 1 _ _ _ _ _ E2
       (slots_one _ _ _ E3 eq_refl) eq_refl) eq_refl) eq_refl).
    rewrite T. reflexivity.
  - assert (TL : tail_len (d_type s0) = 2) by (destruct (d_type s0); try discriminate; reflexivity). rewrite TL in *.
    assert (E1 : slot (core s0 st tp rp (cp + 1) 10 kl dl a b rc false)
       = Ok (core s0 (if kl =? 0 then PGap3 else PGap2) tp rp (cp + 2) 0 kl dl a b rc false, mkRout 1 b 0 0)).
    { rewrite slot_core by lia. replace (cp + 1 + 1) with (cp + 2) by lia.
      destruct F as [->| ->]; unfold case_of; ds; unfold read_cnt0, read_cnt1; ds;
      cbn [Z.eqb Z.leb Pos.eqb Z.compare Pos.compare Pos.compare_cont]; ds; rewrite I14; unfold after_count; ds; cbn [negb];
      rewrite finish_go by (ds; lia); reflexivity. }
    change (Z.to_nat 2) with 2%nat.
    rewrite (slots_cons 1 _ _ _ _ _ E0 (slots_one _ _ _ E1 eq_refl) eq_refl).
    assert (TE : tail14 (d_type s0) = []) by (destruct (d_type s0); try discriminate; reflexivity).
    rewrite TE. reflexivity.
Qed.

(** *** Records *)

Definition rec_cells (s0 : dasd) (p : Z) (r : ckd) : Prop := cells s0 p (ckd_bytes r).
Definition ckd_len (r : ckd) : Z := Z.of_nat (length (ckd_bytes r)).
Lemma ckd_len_eq r : ckd_len r = 8 + Z.of_nat (length (k_key r)) + Z.of_nat (length (k_data r)).
Proof. unfold ckd_len, ckd_bytes. rewrite !app_length. cbn [count_of length]. lia. Qed.

Lemma cells_nth s0 p l i v : cells s0 p l -> nth_error l i = Some v -> cell s0 (p + Z.of_nat i) v.
Proof. intros H E. apply H. exact E. Qed.

Lemma rec_end_core s0 st tp rp cp cnt kl dl a b rc ms c0 c1 c2 c3 l : cells s0 rp (c0 :: c1 :: c2 :: c3 :: l) ->
  rec_end (core s0 st tp rp cp cnt kl dl a b rc ms)
  = Ok (Z.land (Z.land (Z.land c0 c1) c2) c3 =? 255).
Proof.
  intros C. unfold rec_end.
  rewrite (rec_core _ _ _ _ _ _ _ _ _ _ _ _ 0 c0) by (apply (C 0%nat); reflexivity).
  rewrite (rec_core _ _ _ _ _ _ _ _ _ _ _ _ 1 c1) by (apply (C 1%nat); reflexivity).
  rewrite (rec_core _ _ _ _ _ _ _ _ _ _ _ _ 2 c2) by (apply (C 2%nat); reflexivity).
  rewrite (rec_core _ _ _ _ _ _ _ _ _ _ _ _ 3 c3) by (apply (C 3%nat); reflexivity).
  reflexivity.
Qed.

Lemma rec_end_ckd s0 st tp rp cp cnt kl dl a b rc ms r : rec_cells s0 rp r -> ckd_ok r ->
  rec_end (core s0 st tp rp cp cnt kl dl a b rc ms) = Ok false.
Proof.
  intros C K. rewrite (rec_end_core _ _ _ _ _ _ _ _ _ _ _ _ _ _ _ _ _ C).
  destruct K as (_ & _ & _ & _ & _ & _ & _ & _ & _ & K). f_equal. lia.
Qed.

Lemma load_core s0 st tp rp cp cnt kl dl a b rc ms r : rec_cells s0 rp r -> ckd_ok r ->
  load_lens (core s0 st tp rp cp cnt kl dl a b rc ms)
  = Ok (core s0 st tp rp cp cnt (Z.of_nat (length (k_key r))) (Z.of_nat (length (k_data r))) a b rc ms).
Proof.
  intros C K. unfold load_lens.
  rewrite (rec_core _ _ _ _ _ _ _ _ _ _ _ _ 5 (Z.of_nat (length (k_key r)))) by (apply (C 5%nat); reflexivity).
  rewrite (rec_core _ _ _ _ _ _ _ _ _ _ _ _ 6 (Z.of_nat (length (k_data r)) / 256)) by (apply (C 6%nat); reflexivity).
  rewrite (rec_core _ _ _ _ _ _ _ _ _ _ _ _ 7 (Z.of_nat (length (k_data r)) mod 256)) by (apply (C 7%nat); reflexivity).
  ds. replace (Z.of_nat (length (k_data r)) / 256 * 256 + Z.of_nat (length (k_data r)) mod 256)
    with (Z.of_nat (length (k_data r))); [reflexivity|].
  pose proof (Z.div_mod (Z.of_nat (length (k_data r))) 256 ltac:(lia)). lia.
Qed.

(** Key and data of a record, from the end of its count field. *)
Lemma read_body s0 r p cp a b rc : rec_cells s0 p r -> ckd_ok r -> 0 <= p -> p + ckd_len r < 59000 ->
  0 <= cp -> cp + body_len (d_type s0) r <= ty_bpt (d_type s0) ->
  let kl := Z.of_nat (length (k_key r)) in
  let dl := Z.of_nat (length (k_data r)) in
  exists ca cb,
  read_calls (14 * Z.to_nat (body_len (d_type s0) r))
     (core s0 (if kl =? 0 then PGap3 else PGap2) (p + 8) p cp 0 kl dl a b rc false)
  = Ok (core s0 PAm (p + ckd_len r) (p + ckd_len r) (cp + body_len (d_type s0) r) 0 kl dl ca cb rc false,
        key_reads (d_type s0) r ++ data_reads (d_type s0) r).
Proof.
  intros C K P1 P2 P3 P4 kl dl. pose proof (ty_facts (d_type s0)) as TF.
  assert (TL2 : 2 <= tail_len (d_type s0)) by (unfold tail_len; lia).
  rewrite ckd_len_eq in *. fold kl dl in P2. fold kl dl.
  unfold rec_cells, ckd_bytes in C. apply cells_app in C. destruct C as [_ C]. cbn [count_of length] in C.
  apply cells_app in C. destruct C as [CK CD]. fold kl in CD. unfold body_len in *. fold dl in P4. fold dl.
  assert (FL : forall n, 0 <= n -> n <= field_len (d_type s0) n) by (intros; unfold field_len; lia).
  assert (DL := FL dl ltac:(lia)).
  destruct (k_key r) as [|k0 k] eqn:KE.
  - assert (kl = 0) by (subst kl; reflexivity). replace (kl =? 0) with true by lia.
    destruct (read_whole_field s0 PData PAm dl PGap3 1 (k_data r) (p + 8) p cp kl dl a b rc) as (ca & cb & E).
    { right. auto. } { right. auto. } { reflexivity. }
    { replace (p + 8) with (p + Z.of_nat 8 + kl) by lia. exact CD. } { lia. } { lia. } { lia. } { lia. }
    exists ca, cb. unfold key_reads. rewrite KE. cbn [app]. rewrite Z.add_0_l. rewrite E.
    unfold data_reads. do 2 f_equal. f_equal; lia.
  - assert (kl = Z.of_nat (length (k0 :: k))) by (subst kl; reflexivity).
    assert (0 < kl) by (cbn [length] in *; lia). replace (kl =? 0) with false by lia.
    rewrite <- H in *. assert (KL := FL kl ltac:(lia)).
    destruct (read_whole_field s0 PKey PGap3 kl PGap2 2 (k0 :: k) (p + 8) p cp kl dl a b rc) as (ca & cb & E).
    { left. auto. } { left. auto. } { assumption. }
    { exact CK. } { lia. } { lia. } { lia. } { lia. }
    destruct (read_whole_field s0 PData PAm dl PGap3 1 (k_data r) (p + 8 + kl) p (cp + field_len (d_type s0) kl) kl dl ca cb rc) as (ca' & cb' & E').
    { right. auto. } { right. auto. } { reflexivity. }
    { exact CD. } { lia. } { lia. } { lia. } { lia. }
    exists ca', cb'. 
    replace (Z.to_nat (field_len (d_type s0) kl + field_len (d_type s0) dl))
      with (Z.to_nat (field_len (d_type s0) kl) + Z.to_nat (field_len (d_type s0) dl))%nat by lia.
    rewrite (slots_app _ _ _ _ _ _ _ E E'). unfold key_reads, data_reads. rewrite KE. do 2 f_equal. f_equal; lia.
Qed.

Lemma bit128 x : byte x -> bit x 128 = (128 <=? x).
Proof.
  assert (W : forallb (fun x => Bool.eqb (bit x 128) (128 <=? x)) (zrange 256) = true) by (vm_compute; reflexivity).
  intros B. pose proof (sweep 256 _ W x B) as E. cbn beta in E. apply Bool.eqb_prop in E. exact E.
Qed.
Lemma land127 x : Z.land x 127 = x mod 128.
Proof. change 127 with (Z.ones 7). rewrite Z.land_ones by lia. reflexivity. Qed.
Lemma odd_u8 x : Z.odd (u8 x) = Z.odd x.
Proof.
  unfold u8. rewrite (Z.div_mod x 256) at 2 by lia. rewrite Z.odd_add, Z.odd_mul. cbn [Z.odd andb]. 
  destruct (Z.odd (x mod 256)); reflexivity.
Qed.

(** R0, from the gap behind the home address. *)
Lemma read_r0 s0 r cp kl dl a b rc : rec_cells s0 5 r -> ckd_ok r -> 5 + ckd_len r < 59000 ->
  0 <= cp -> cp + r0_len (d_type s0) r <= ty_bpt (d_type s0) ->
  exists kl' dl' ca cb,
  read_calls (14 * Z.to_nat (r0_len (d_type s0) r)) (core s0 PGap1 5 5 cp 0 kl dl a b rc false)
  = Ok (core s0 PAm (5 + ckd_len r) (5 + ckd_len r) (cp + r0_len (d_type s0) r) 0 kl' dl' ca cb 0 false,
        r0_reads (d_type s0) r).
Proof.
  intros C K P1 P2 P3. pose proof (ty_facts (d_type s0)) as TF.
  assert (TL2 : 2 <= tail_len (d_type s0)) by (unfold tail_len; lia).
  set (t := d_type s0) in *.
  set (g := ty_g1 t) in *. unfold r0_len in *. fold g in P3. fold g.
  assert (BL : 0 <= body_len t r).
  { unfold body_len, field_len. destruct (k_key r); lia. }
  assert (S1 := gap_slots (Z.to_nat g) s0 PGap1 5 5 cp 0 kl dl a b rc false ltac:(lia) ltac:(fold t; lia) ltac:(lia)
     ltac:(cbn [gap_len]; fold t g; lia)).
  replace (cp + Z.of_nat (Z.to_nat g)) with (cp + g) in S1 by lia.
  replace (0 + Z.of_nat (Z.to_nat g)) with g in S1 by lia.
  assert (S2 : exists o, slot (core s0 PGap1 5 5 (cp + g) g kl dl a b rc false)
     = Ok (core s0 PCnt0 5 5 (cp + g + 1) 0 kl dl 255 255 rc false, o) /\ outs o = [sync_of t 3]).
  { rewrite slot_core by (fold t; lia). unfold case_of; ds; unfold read_gap1; dc. fold t g. rewrite Z.eqb_refl.
    pose proof (rec_end_ckd s0 PGap1 5 5 (cp + g + 1) (g + 1) kl dl 255 255 rc false r C K) as RE.
    rewrite RE. dc.
    assert (X : forall d, finish (mkRd (core s0 PCnt0 5 5 (cp + g + 1) 0 kl dl 255 255 rc false) d
       (if is14 t then 1 else 0) 0 true) = Ok (core s0 PCnt0 5 5 (cp + g + 1) 0 kl dl 255 255 rc false,
           mkRout 1 d (if is14 t then 1 else 0) 0)).
    { intros. rewrite finish_go by (ds; fold t; lia). reflexivity. }
    destruct (is14 t) eqn:I14; dc; cbn [negb].
    - rewrite X. assert (ET : t = T2314) by (destruct t; try discriminate; reflexivity). rewrite ET.
      eexists; split; reflexivity.
    - rewrite X. eexists; split; [reflexivity|]. destruct t; try discriminate; reflexivity. }
  destruct S2 as (o2 & S2 & O2).
  set (kl' := Z.of_nat (length (k_key r))). set (dl' := Z.of_nat (length (k_data r))).
  assert (S3 : exists o, slot (core s0 PCnt0 5 5 (cp + g + 1) 0 kl dl 255 255 rc false)
     = Ok (core s0 PCnt0 5 5 (cp + g + 2) 1 kl' dl' 255 255 0 false, o) /\ outs o = [0]).
  { rewrite slot_core by (fold t; lia). unfold case_of; ds; unfold read_cnt0; ds.
    cbn [Z.eqb]. 
    pose proof (rec_end_ckd s0 PCnt0 5 5 (cp + g + 1 + 1) (0 + 1) kl dl 255 255 0 false r C K) as RE.
    pose proof (load_core s0 PCnt0 5 5 (cp + g + 1 + 1) (0 + 1) kl dl 255 255 0 false r C K) as LE.
    dc. rewrite RE. dc. rewrite LE. dc. cbn [negb].
    rewrite finish_go by (ds; fold t; lia). ds. replace (cp + g + 1 + 1) with (cp + g + 2) by lia.
    eexists; split; reflexivity. }
  destruct S3 as (o3 & S3 & O3).
  assert (CC : cells s0 (5 + (1 - 1)) (count_of r)).
  { unfold rec_cells, ckd_bytes in C. apply cells_app in C. apply C. }
  assert (S4 := cnt_slots (count_of r) s0 PCnt0 5 5 (cp + g + 2) 1 kl' dl' 255 255 0 ltac:(left; split; [reflexivity|lia])
     ltac:(cbn [count_of length]; lia) CC ltac:(lia) ltac:(cbn [count_of length]; lia) ltac:(lia)
     ltac:(cbn [count_of length]; fold t; lia)).
  change (Z.of_nat (length (count_of r))) with 8 in S4. change (1 - 1) with 0 in S4. change (1 + 8) with 9 in S4.
  rewrite collect_check in S4 by reflexivity.
  set (A := fst (check2 255 255 (count_of r))) in *. set (B := snd (check2 255 255 (count_of r))) in *.
  assert (S5 := cnt_tail s0 PCnt0 (5 + 8) 5 (cp + g + 2 + 8) kl' dl' A B 0 ltac:(left; reflexivity) ltac:(lia) ltac:(fold t; lia)).
  fold t in S5.
  destruct (read_body s0 r 5 (cp + g + 2 + 8 + tail_len t) A B 0 C K ltac:(lia) ltac:(lia) ltac:(lia) ltac:(fold t; lia)) as (ca & cb & S6).
  fold kl' dl' t in S6.
  exists kl', dl', ca, cb.
  replace (Z.to_nat (g + 1 + 9 + tail_len t + body_len t r)) with
    (Z.to_nat g + (S (S (length (count_of r) + (Z.to_nat (tail_len t) + Z.to_nat (body_len t r))))))%nat
    by (cbn [count_of length]; lia).
  rewrite (slots_app _ _ _ _ _ _ _ S1 (slots_cons _ _ _ _ _ _ S2 (slots_cons _ _ _ _ _ _ S3
     (slots_app _ _ _ _ _ _ _ S4 (slots_app _ _ _ _ _ _ _ S5 S6)) eq_refl) eq_refl)).
  rewrite O2, O3. unfold r0_reads, checked. rewrite <- !app_assoc. cbn [app]. do 2 f_equal. f_equal; lia.
Qed.

(** Any other record, from the gap in front of its address mark. *)
Lemma read_rn s0 r p n cp kl dl a b : rec_cells s0 p r -> ckd_ok r -> 0 <= p -> p + ckd_len r < 59000 ->
  0 <= cp -> cp + rn_len (d_type s0) r <= ty_bpt (d_type s0) ->
  exists kl' dl' ca cb,
  read_calls (14 * Z.to_nat (rn_len (d_type s0) r)) (core s0 PAm p p cp 0 kl dl a b (u8 (n - 1)) false)
  = Ok (core s0 PAm (p + ckd_len r) (p + ckd_len r) (cp + rn_len (d_type s0) r) 0 kl' dl' ca cb (u8 n) false,
        rn_reads (d_type s0) n r).
Proof.
  intros C K P0 P1 P2 P3. pose proof (ty_facts (d_type s0)) as TF.
  assert (TL2 : 2 <= tail_len (d_type s0)) by (unfold tail_len; lia).
  set (t := d_type s0) in *.
  set (g := ty_g2 t) in *. unfold rn_len in *. unfold field_len in P3 at 1. fold g in P3.
  assert (BL : 0 <= body_len t r).
  { unfold body_len, field_len. destruct (k_key r); lia. }
  assert (LEN : 8 <= ckd_len r) by (rewrite ckd_len_eq; lia).
  set (rc := u8 (n - 1)).
  assert (S1 := gap_slots (Z.to_nat (g - 1)) s0 PAm p p cp 0 kl dl a b rc false ltac:(lia) ltac:(fold t; lia) ltac:(lia)
     ltac:(cbn [gap_len]; fold t g; lia)).
  replace (cp + Z.of_nat (Z.to_nat (g - 1))) with (cp + g - 1) in S1 by lia.
  replace (0 + Z.of_nat (Z.to_nat (g - 1))) with (g - 1) in S1 by lia.
  assert (S2 : exists o, slot (core s0 PAm p p (cp + g - 1) (g - 1) kl dl a b rc false)
     = Ok (core s0 PAm p p (cp + g) g kl dl a b rc false, o) /\ outs o = []).
  { rewrite slot_core by (fold t; lia). unfold case_of; ds; unfold read_am; ds. fold t g.
    replace (g - 1 =? g) with false by lia. replace (g - 2 <? g - 1) with true by lia. ds. rewrite finish_no.
    replace (cp + g - 1 + 1) with (cp + g) by lia. replace (g - 1 + 1) with g by lia. eexists; split; reflexivity. }
  destruct S2 as (o2 & S2 & O2).
  assert (S3 : exists o, slot (core s0 PAm p p (cp + g) g kl dl a b rc false)
     = Ok (core s0 PCnt1 p p (cp + g + 1) 0 kl dl 255 255 rc false, o) /\ outs o = [sync_of t 6]).
  { rewrite slot_core by (fold t; lia). unfold case_of; ds; unfold read_am; dc. fold t g. rewrite Z.eqb_refl.
    pose proof (rec_end_ckd s0 PAm p p (cp + g + 1) (g + 1) kl dl 255 255 rc false r C K) as RE.
    rewrite RE. dc.
    rewrite finish_go by (ds; fold t; lia). ds. eexists; split; [reflexivity|]. destruct t; reflexivity. }
  destruct S3 as (o3 & S3 & O3).
  set (kl' := Z.of_nat (length (k_key r))). set (dl' := Z.of_nat (length (k_data r))).
  set (f := flag_of n r).
  assert (RC : u8 (rc + 1) = u8 n).
  { subst rc. unfold u8. rewrite Zplus_mod_idemp_l. f_equal. lia. }
  assert (CELL0 : cell s0 p (k_c0 r)).
  { replace p with (p + Z.of_nat 0) by lia. apply C. reflexivity. }
  assert (KB : byte (k_c0 r)) by apply K.
  assert (S4 : exists o, slot (core s0 PCnt1 p p (cp + g + 1) 0 kl dl 255 255 rc false)
     = Ok (core s0 PCnt1 p p (cp + g + 2) 1 kl' dl' 255 (Z.lxor 255 f) (u8 n) false, o) /\ outs o = [f]).
  { rewrite slot_core by (fold t; lia). unfold case_of; ds; unfold read_cnt1; ds.
    cbn [Z.eqb]. rewrite RC.
    pose proof (rec_end_ckd s0 PCnt1 p p (cp + g + 1 + 1) (0 + 1) kl dl 255 255 (u8 n) false r C K) as RE.
    pose proof (load_core s0 PCnt1 p p (cp + g + 1 + 1) (0 + 1) kl dl 255 255 (u8 n) false r C K) as LE.
    pose proof (rec_core s0 PCnt1 p p (cp + g + 1 + 1) (0 + 1) kl' dl' 255 255 (u8 n) false 0 (k_c0 r)
       ltac:(rewrite Z.add_0_r; exact CELL0)) as CE.
    dc. rewrite RE. dc. rewrite LE. dc. fold kl' dl'. rewrite CE. dc.
    rewrite bit128 by exact KB. rewrite odd_u8. fold (flag_of n r). fold f. cbn [negb].
    rewrite finish_go by (ds; fold t; lia). ds. replace (cp + g + 1 + 1) with (cp + g + 2) by lia.
    eexists; split; reflexivity. }
  destruct S4 as (o4 & S4 & O4).
  set (c0' := k_c0 r mod 128).
  assert (S5 : exists o, slot (core s0 PCnt1 p p (cp + g + 2) 1 kl' dl' 255 (Z.lxor 255 f) (u8 n) false)
     = Ok (core s0 PCnt1 (p + 1) p (cp + g + 3) 2 kl' dl' (Z.lxor 255 c0') (Z.lxor 255 f) (u8 n) false, o) /\ outs o = [c0']).
  { rewrite slot_core by (fold t; lia). unfold case_of; ds; unfold read_cnt1; ds.
    cbn [Z.eqb Pos.eqb].
    pose proof (rec_core s0 PCnt1 p p (cp + g + 2 + 1) (1 + 1) kl' dl' 255 (Z.lxor 255 f) (u8 n) false 0 (k_c0 r)
       ltac:(rewrite Z.add_0_r; exact CELL0)) as CE.
    dc. rewrite CE. dc. rewrite u16_small by lia. cbn [negb]. rewrite land127. fold c0'.
    rewrite finish_go by (ds; fold t; lia). ds. replace (cp + g + 2 + 1) with (cp + g + 3) by lia.
    eexists; split; reflexivity. }
  destruct S5 as (o5 & S5 & O5).
  assert (CC : cells s0 (p + (2 - 1)) (tl (count_of r))).
  { unfold rec_cells, ckd_bytes in C. apply cells_app in C. destruct C as [C _].
    apply cells_cons in C. apply C. }
  assert (S6 := cnt_slots (tl (count_of r)) s0 PCnt1 (p + 1) p (cp + g + 3) 2 kl' dl' (Z.lxor 255 c0') (Z.lxor 255 f) (u8 n)
     ltac:(right; split; [reflexivity|lia])
     ltac:(cbn [count_of length tl]; lia) CC ltac:(lia) ltac:(cbn [count_of length tl]; lia) ltac:(lia)
     ltac:(cbn [count_of length tl]; fold t; lia)).
  change (Z.of_nat (length (tl (count_of r)))) with 7 in S6. change (2 - 1) with 1 in S6. change (2 + 7) with 9 in S6.
  set (k := check2 255 255 (c0' :: tl (count_of r))).
  assert (KA : collect 1 (Z.lxor 255 c0', Z.lxor 255 f) (tl (count_of r)) = (fst k, Z.lxor f (snd k))).
  { subst k. cbn [count_of tl collect check2 fst snd Z.odd Z.add Pos.add Pos.succ]. f_equal.
    rewrite (Z.lxor_comm 255 f). rewrite !Z.lxor_assoc. reflexivity. }
  rewrite KA in S6. cbn [fst snd] in S6. replace (p + 1 + 7) with (p + 8) in S6 by lia.
  assert (S7 := cnt_tail s0 PCnt1 (p + 8) p (cp + g + 3 + 7) kl' dl' (fst k) (Z.lxor f (snd k)) (u8 n) ltac:(right; reflexivity) ltac:(lia) ltac:(fold t; lia)).
  fold t in S7.
  destruct (read_body s0 r p (cp + g + 3 + 7 + tail_len t) (fst k) (Z.lxor f (snd k)) (u8 n) C K ltac:(lia) ltac:(lia) ltac:(lia) ltac:(fold t; lia)) as (ca & cb & S8).
  fold kl' dl' t in S8.
  exists kl', dl', ca, cb.
  unfold field_len at 1.
  replace (Z.to_nat (ty_g2 t + 1 + 9 + tail_len t + body_len t r)) with
    (Z.to_nat (g - 1) + (S (S (S (S (length (tl (count_of r)) + (Z.to_nat (tail_len t) + Z.to_nat (body_len t r))))))))%nat
    by (cbn [count_of length tl]; fold g; lia).
  rewrite (slots_app _ _ _ _ _ _ _ S1 (slots_cons _ _ _ _ _ _ S2 (slots_cons _ _ _ _ _ _ S3
     (slots_cons _ _ _ _ _ _ S4 (slots_cons _ _ _ _ _ _ S5
     (slots_app _ _ _ _ _ _ _ S6 (slots_app _ _ _ _ _ _ _ S7 S8)) eq_refl) eq_refl) eq_refl) eq_refl)).
  rewrite O2, O3, O4, O5. unfold rn_reads. fold c0' k f. cbn [app].
  do 2 f_equal. unfold field_len; fold g. f_equal; lia.
Qed.

Lemma rn_len_pos t r : 0 < rn_len t r.
Proof.
  unfold rn_len, body_len, field_len, tail_len. pose proof (ty_facts t). destruct (k_key r); lia.
Qed.
Lemma rs_len_pos t l : 0 <= rs_len t l.
Proof. induction l as [|r l IH]; cbn [rs_len]; [lia|]. pose proof (rn_len_pos t r). lia. Qed.

Lemma ckd_le_len t r : ckd_len r <= rn_len t r.
Proof.
  rewrite ckd_len_eq. unfold rn_len, body_len, field_len, tail_len. pose proof (ty_facts t).
  destruct (k_key r); cbn [length]; lia.
Qed.

Lemma read_rs l : forall s0 p n cp kl dl a b,
  cells s0 p (concat (map ckd_bytes l)) -> Forall ckd_ok l -> 0 <= p -> p <= cp ->
  0 <= cp -> cp + rs_len (d_type s0) l <= ty_bpt (d_type s0) ->
  exists kl' dl' ca cb,
  read_calls (14 * Z.to_nat (rs_len (d_type s0) l)) (core s0 PAm p p cp 0 kl dl a b (u8 (n - 1)) false)
  = Ok (core s0 PAm (p + Z.of_nat (length (concat (map ckd_bytes l)))) (p + Z.of_nat (length (concat (map ckd_bytes l))))
          (cp + rs_len (d_type s0) l) 0 kl' dl' ca cb (u8 (n - 1 + Z.of_nat (length l))) false,
        rs_reads (d_type s0) n l)
  /\ p + Z.of_nat (length (concat (map ckd_bytes l))) <= cp + rs_len (d_type s0) l.
Proof.
  induction l as [|r l IH]; intros s0 p n cp kl dl a b C K P0 P1 P2 P3.
  - exists kl, dl, a, b. cbn [rs_len map concat length Z.of_nat rs_reads]. rewrite !Z.add_0_r. split; [reflexivity|lia].
  - cbn [rs_len map concat rs_reads length] in *. apply cells_app in C. destruct C as [C1 C2].
    inversion_clear K as [|? ? K1 K2]. pose proof (rn_len_pos (d_type s0) r). pose proof (rs_len_pos (d_type s0) l).
    pose proof (ckd_le_len (d_type s0) r) as CL. pose proof (ty_facts (d_type s0)) as TF.
    assert (L0 : 0 <= ckd_len r) by (unfold ckd_len; lia).
    destruct (read_rn s0 r p n cp kl dl a b C1 K1 P0 ltac:(lia) P2 ltac:(lia)) as (kl1 & dl1 & a1 & b1 & E1).
    destruct (IH s0 (p + ckd_len r) (n + 1) (cp + rn_len (d_type s0) r) kl1 dl1 a1 b1 C2 K2 ltac:(lia) ltac:(lia) ltac:(lia) ltac:(lia))
      as (kl2 & dl2 & a2 & b2 & E2 & L2).
    replace (n + 1 - 1) with n in E2 by lia.
    exists kl2, dl2, a2, b2. rewrite app_length. split.
    + rewrite Z2Nat.inj_add by lia. rewrite (slots_app _ _ _ _ _ _ _ E1 E2). do 2 f_equal.
      unfold ckd_len. f_equal; try lia. f_equal. lia.
    + unfold ckd_len in L2. lia.
Qed.

(** The end mark: nothing is delivered until the index comes round. *)
Lemma end_slot s0 tp rp cp kl dl a b rc :
  0 <= cp < ty_bpt (d_type s0) ->
  exists o, slot (core s0 PEnd tp rp cp 0 kl dl a b rc false) = Ok (core s0 PEnd tp rp (cp + 1) 0 0 0 a b rc false, o)
            /\ outs o = [].
Proof.
  intros H. rewrite slot_core by lia. unfold case_of; ds. unfold read_end, read_wrap. dc.
  replace (ty_bpt (d_type s0) + 1 <=? cp + 1) with false by lia. eexists; split; reflexivity.
Qed.
Lemma index_slot s0 tp rp kl dl a b rc :
  exists o, slot (core s0 PEnd tp rp (ty_bpt (d_type s0)) 0 kl dl a b rc false) = Ok (core s0 PIndex tp rp 0 0 0 0 a b rc false, o)
            /\ outs o = [] /\ o_ix o = 1.
Proof.
  pose proof (ty_facts (d_type s0)). rewrite slot_core by lia. unfold case_of; ds. unfold read_end, read_wrap. dc.
  replace (ty_bpt (d_type s0) + 1 <=? ty_bpt (d_type s0) + 1) with true by lia. eexists; repeat split; reflexivity.
Qed.
Lemma end_slots n : forall s0 tp rp cp kl dl a b rc,
  0 <= cp -> cp + Z.of_nat n = ty_bpt (d_type s0) + 1 -> (0 < n)%nat ->
  read_calls (14 * n) (core s0 PEnd tp rp cp 0 kl dl a b rc false) = Ok (core s0 PIndex tp rp 0 0 0 0 a b rc false, []).
Proof.
  induction n as [|n IH]; intros s0 tp rp cp kl dl a b rc P1 P2 P3; [lia|].
  destruct n as [|n].
  - assert (cp = ty_bpt (d_type s0)) by lia. subst cp.
    destruct (index_slot s0 tp rp kl dl a b rc) as (o & E & O & _).
    rewrite (slots_one _ _ _ E eq_refl), O. reflexivity.
  - destruct (end_slot s0 tp rp cp kl dl a b rc ltac:(lia)) as (o & E & O).
    assert (I := IH s0 tp rp (cp + 1) 0 0 a b rc ltac:(lia) ltac:(lia) ltac:(lia)).
    rewrite (slots_cons _ _ _ _ _ _ E I eq_refl), O. reflexivity.
Qed.

Lemma read_endmark s0 p cp kl dl a b rc : cells s0 p [255; 255; 255; 255] ->
  0 <= cp -> cp + ty_g2 (d_type s0) + 1 <= ty_bpt (d_type s0) ->
  exists a' b',
  read_calls (14 * Z.to_nat (ty_g2 (d_type s0) + 1)) (core s0 PAm p p cp 0 kl dl a b rc false)
  = Ok (core s0 PEnd p p (cp + ty_g2 (d_type s0) + 1) 0 kl dl a' b' rc false, []).
Proof.
  intros C P1 P2. pose proof (ty_facts (d_type s0)) as TF.
  set (t := d_type s0) in *. set (g := ty_g2 t) in *.
  assert (S1 := gap_slots (Z.to_nat (g - 1)) s0 PAm p p cp 0 kl dl a b rc false ltac:(lia) ltac:(fold t; lia) ltac:(lia)
     ltac:(cbn [gap_len]; fold t g; lia)).
  replace (cp + Z.of_nat (Z.to_nat (g - 1))) with (cp + g - 1) in S1 by lia.
  replace (0 + Z.of_nat (Z.to_nat (g - 1))) with (g - 1) in S1 by lia.
  assert (S2 : exists o, slot (core s0 PAm p p (cp + g - 1) (g - 1) kl dl a b rc false)
     = Ok (core s0 PAm p p (cp + g) g kl dl a b rc false, o) /\ outs o = []).
  { rewrite slot_core by (fold t; lia). unfold case_of; ds; unfold read_am; ds. fold t g.
    replace (g - 1 =? g) with false by lia. replace (g - 2 <? g - 1) with true by lia. ds. rewrite finish_no.
    replace (cp + g - 1 + 1) with (cp + g) by lia. replace (g - 1 + 1) with g by lia. eexists; split; reflexivity. }
  destruct S2 as (o2 & S2 & O2).
  assert (S3 : exists o, slot (core s0 PAm p p (cp + g) g kl dl a b rc false)
     = Ok (core s0 PEnd p p (cp + g + 1) 0 kl dl 255 255 rc false, o) /\ outs o = []).
  { rewrite slot_core by (fold t; lia). unfold case_of; ds; unfold read_am; dc. fold t g. rewrite Z.eqb_refl.
    rewrite (rec_end_core s0 PAm p p (cp + g + 1) (g + 1) kl dl 255 255 rc false _ _ _ _ _ C). dc.
    cbn [Z.land Pos.land Pos.Nsucc_double Z.of_N Z.eqb Pos.eqb]. dc. rewrite finish_no. eexists; split; reflexivity. }
  destruct S3 as (o3 & S3 & O3).
  exists 255, 255. replace (Z.to_nat (g + 1)) with (Z.to_nat (g - 1) + 2)%nat by lia.
  rewrite (slots_app _ _ _ _ _ _ _ S1 (slots_cons _ _ _ _ _ _ S2 (slots_one _ _ _ S3 eq_refl) eq_refl)).
  rewrite O2, O3. reflexivity.
Qed.

(** From the index to the home address. *)
Lemma idx_slot s0 tp rp cp cnt kl dl a b rc ms :
  0 <= cp <= ty_bpt (d_type s0) -> 0 <= cnt < ty_g4 (d_type s0) ->
  exists o, slot (core s0 PIndex tp rp cp cnt kl dl a b rc ms)
            = Ok (core s0 PIndex tp rp (cp + 1) (cnt + 1) kl dl a b rc ms, o) /\ outs o = [].
Proof.
  intros H1 H2. pose proof (ty_facts (d_type s0)) as F. rewrite slot_core by lia. unfold case_of; ds. unfold read_index; ds.
  replace (cnt =? ty_g4 (d_type s0)) with false by lia. ds. rewrite finish_no. eexists; split; reflexivity.
Qed.
Lemma idx_slots n : forall s0 tp rp cp cnt kl dl a b rc ms,
  0 <= cp -> cp + Z.of_nat n <= ty_bpt (d_type s0) -> 0 <= cnt -> cnt + Z.of_nat n <= ty_g4 (d_type s0) ->
  read_calls (14 * n) (core s0 PIndex tp rp cp cnt kl dl a b rc ms)
  = Ok (core s0 PIndex tp rp (cp + Z.of_nat n) (cnt + Z.of_nat n) kl dl a b rc ms, []).
Proof.
  induction n as [|n IH]; intros s0 tp rp cp cnt kl dl a b rc ms H0 H1 H2 H3.
  - cbn [Z.of_nat Nat.mul read_calls]. rewrite !Z.add_0_r. reflexivity.
  - destruct (idx_slot s0 tp rp cp cnt kl dl a b rc ms) as (o & E & O); [lia|lia|].
    assert (I := IH s0 tp rp (cp + 1) (cnt + 1) kl dl a b rc ms ltac:(lia) ltac:(lia) ltac:(lia) ltac:(lia)).
    rewrite (slots_cons n _ _ _ _ _ E I eq_refl), O. cbn [app]. do 2 f_equal. f_equal; lia.
Qed.

Lemma core_self s : slot s = slot (core s (d_state s) (d_tpos s) (d_rpos s) (d_cpos s) (d_count s) (d_klen s) (d_dlen s)
   (d_ck0 s) (d_ck1 s) (d_rcnt s) (d_ams s)).
Proof.
  unfold slot, dasd_read_byte. ds. unfold ty_rate. change (13 <? 13) with false. cbv iota.
  destruct (ty_bpt (d_type s) + 1 <=? d_cpos s); reflexivity.
Qed.
Lemma calls_self n s : d_step s = 0 ->
  read_calls (14 * S n) s = read_calls (14 * S n) (core s (d_state s) (d_tpos s) (d_rpos s) (d_cpos s) (d_count s) (d_klen s) (d_dlen s)
   (d_ck0 s) (d_ck1 s) (d_rcnt s) (d_ams s)).
Proof. intros H. rewrite !slots_S by (exact H || reflexivity). rewrite core_self at 1. reflexivity. Qed.

Lemma ha_slot s0 cp cnt kl dl a b rc x :
  0 <= cnt <= 4 -> cell s0 cnt x -> 0 <= cp < ty_bpt (d_type s0) ->
  exists o, slot (core s0 PHa cnt 0 cp cnt kl dl a b rc false)
     = Ok (core s0 PHa (cnt + 1) 0 (cp + 1) (cnt + 1) kl dl
             (if Z.odd cnt then Z.lxor a x else a) (if Z.odd cnt then b else Z.lxor b x) rc false, o) /\ outs o = [x].
Proof.
  intros H1 C H2. rewrite slot_core by lia. unfold case_of; ds. unfold read_ha; ds.
  replace (cnt <=? 4) with true by lia.
  rewrite (rec_core s0 PHa cnt 0 (cp + 1) (cnt + 1) kl dl a b rc false cnt x C). ds. unfold ck_xor. ds.
  rewrite odd_succ. destruct (Z.odd cnt); cbn [negb]; dc; rewrite u16_small by lia; rewrite finish_go by (ds; lia);
  eexists; split; reflexivity.
Qed.

Lemma ha_tail s0 cp kl dl a b rc : 0 <= cp -> cp + tail_len (d_type s0) <= ty_bpt (d_type s0) ->
  read_calls (14 * Z.to_nat (tail_len (d_type s0))) (core s0 PHa 5 0 cp 5 kl dl a b rc false)
  = Ok (core s0 PGap1 5 5 (cp + tail_len (d_type s0)) 0 kl dl a b rc false, a :: b :: tail14 (d_type s0)).
Proof.
  intros P1 P2.
  assert (TL2 : 2 <= tail_len (d_type s0)) by (unfold tail_len; lia).
  assert (E0 : slot (core s0 PHa 5 0 cp 5 kl dl a b rc false)
     = Ok (core s0 PHa 5 0 (cp + 1) 6 kl dl a b rc false, mkRout 1 a 0 0)).
  { rewrite slot_core by lia. unfold case_of; ds; unfold read_ha; ds.
    cbn [Z.eqb Z.leb Pos.eqb Z.compare Pos.compare Pos.compare_cont]; ds. rewrite finish_go by (ds; lia); reflexivity. }
  destruct (is14 (d_type s0)) eqn:I14.
  - assert (T : d_type s0 = T2314) by (destruct (d_type s0); try discriminate; reflexivity).
    assert (TL : tail_len (d_type s0) = 4) by (rewrite T; reflexivity). rewrite TL in *.
    assert (E1 : slot (core s0 PHa 5 0 (cp + 1) 6 kl dl a b rc false)
       = Ok (core s0 PHa 5 5 (cp + 2) 7 kl dl a b rc false, mkRout 1 b 0 0)).
    { rewrite slot_core by lia. replace (cp + 1 + 1) with (cp + 2) by lia.
      unfold case_of; ds; unfold read_ha; ds.
      cbn [Z.eqb Z.leb Pos.eqb Z.compare Pos.compare Pos.compare_cont]; ds; rewrite I14; dc;
      rewrite finish_go by (ds; lia); reflexivity. }
    assert (E2 : slot (core s0 PHa 5 5 (cp + 2) 7 kl dl a b rc false)
       = Ok (core s0 PHa 5 5 (cp + 3) 8 kl dl a b rc false, mkRout 1 1 0 0)).
    { rewrite slot_core by lia. replace (cp + 2 + 1) with (cp + 3) by lia.
      unfold case_of; ds; unfold read_ha; ds.
      cbn [Z.eqb Z.leb Pos.eqb Z.compare Pos.compare Pos.compare_cont]; ds;
      rewrite finish_go by (ds; lia); reflexivity. }
    assert (E3 : slot (core s0 PHa 5 5 (cp + 3) 8 kl dl a b rc false)
       = Ok (core s0 PGap1 5 5 (cp + 4) 0 kl dl a b rc false, mkRout 1 255 0 0)).
    { rewrite slot_core by lia. replace (cp + 3 + 1) with (cp + 4) by lia.
      unfold case_of; ds; unfold read_ha; ds.
      cbn [Z.eqb Z.leb Pos.eqb Z.compare Pos.compare Pos.compare_cont]; dc;
      rewrite finish_go by (ds; lia); reflexivity. }
    change (Z.to_nat 4) with 4%nat.
    rewrite (slots_cons 3 _ _ _ _ _ E0 (slots_cons 2 _ _ _ _ _ E1 (slots_cons 1 _ _ _ _ _ E2
       (slots_one _ _ _ E3 eq_refl) eq_refl) eq_refl) eq_refl).
    rewrite T. reflexivity.
  - assert (TL : tail_len (d_type s0) = 2) by (destruct (d_type s0); try discriminate; reflexivity). rewrite TL in *.
    assert (E1 : slot (core s0 PHa 5 0 (cp + 1) 6 kl dl a b rc false)
       = Ok (core s0 PGap1 5 5 (cp + 2) 0 kl dl a b rc false, mkRout 1 b 0 0)).
    { rewrite slot_core by lia. replace (cp + 1 + 1) with (cp + 2) by lia.
      unfold case_of; ds; unfold read_ha; ds.
      cbn [Z.eqb Z.leb Pos.eqb Z.compare Pos.compare Pos.compare_cont]; ds; rewrite I14; dc;
      rewrite finish_go by (ds; lia); reflexivity. }
    change (Z.to_nat 2) with 2%nat.
    rewrite (slots_cons 1 _ _ _ _ _ E0 (slots_one _ _ _ E1 eq_refl) eq_refl).
    assert (TE : tail14 (d_type s0) = []) by (destruct (d_type s0); try discriminate; reflexivity).
    rewrite TE. reflexivity.
Qed.

(** From the index through the home address. *)
Lemma read_ha_all s ha : d_state s = PIndex -> d_count s = 0 -> d_cpos s = 0 -> d_step s = 0 ->
  length ha = 5%nat -> cells (new_tstart s) 0 ha ->
  exists kl dl a b rc,
  read_calls (14 * Z.to_nat (ha_len (d_type s))) s
  = Ok (core (new_tstart s) PGap1 5 5 (ha_len (d_type s)) 0 kl dl a b rc false, ha_reads (d_type s) ha).
Proof.
  intros ST C P T L H. pose proof (ty_facts (d_type s)) as TF.
  set (t := d_type s) in *. set (g := ty_g4 t) in *.
  assert (TL2 : 2 <= tail_len t <= 4) by (unfold tail_len, tail14; destruct t; cbn; lia).
  destruct ha as [|h0 [|h1 [|h2 [|h3 [|h4 [|]]]]]]; try discriminate L.
  assert (X : Z.to_nat (ha_len t) = S (Z.to_nat (g - 1) + 1 + (5 + Z.to_nat (tail_len t)))) by (unfold ha_len; fold g; lia).
  assert (NE : exists n, Z.to_nat (ha_len t) = S n) by (eexists; exact X). destruct NE as (n & NE).
  rewrite NE, calls_self by exact T. rewrite <- NE. rewrite ST, P, C.
  generalize (d_tpos s) (d_rpos s) (d_klen s) (d_dlen s) (d_ck0 s) (d_ck1 s) (d_rcnt s) (d_ams s).
  intros tp rp kl dl a b rc ms.
  assert (S1 := idx_slots (Z.to_nat g) s tp rp 0 0 kl dl a b rc ms ltac:(lia) ltac:(fold t; lia) ltac:(lia) ltac:(fold t g; lia)).
  replace (0 + Z.of_nat (Z.to_nat g)) with g in S1 by lia.
  set (s0 := new_tstart s) in *.
  assert (T0 : d_type s0 = t) by reflexivity.
  assert (S2 : exists o, slot (core s PIndex tp rp g g kl dl a b rc ms)
     = Ok (core s0 PHa 0 0 (g + 1) 0 kl dl 255 255 rc false, o) /\ outs o = [sync_of t 5]).
  { rewrite slot_core by (fold t; lia). unfold case_of; ds; unfold read_index; ds. fold t g. rewrite Z.eqb_refl.
    ds. change (set_ams (ck_init (set_state (set_count (set_rpos (set_tpos (new_tstart (core s PIndex tp rp (g + 1) (g + 1) kl dl a b rc ms)) 0) 0) 0) PHa)) false)
      with (core s0 PHa 0 0 (g + 1) 0 kl dl 255 255 rc false).
    rewrite finish_go by (ds; rewrite T0; lia). ds. eexists; split; [reflexivity|]. destruct t; reflexivity. }
  destruct S2 as (o2 & S2 & O2).
  destruct (cells_cons _ _ _ _ H) as [C0 H1]. destruct (cells_cons _ _ _ _ H1) as [C1 H2].
  destruct (cells_cons _ _ _ _ H2) as [C2 H3]. destruct (cells_cons _ _ _ _ H3) as [C3 H4].
  destruct (cells_cons _ _ _ _ H4) as [C4 _].
  destruct (ha_slot s0 (g + 1) 0 kl dl 255 255 rc h0 ltac:(lia) C0 ltac:(rewrite T0; lia)) as (p0 & E0 & Q0).
  destruct (ha_slot s0 (g + 1 + 1) 1 kl dl 255 (Z.lxor 255 h0) rc h1 ltac:(lia) C1 ltac:(rewrite T0; lia)) as (p1 & E1 & Q1).
  destruct (ha_slot s0 (g + 1 + 1 + 1) 2 kl dl (Z.lxor 255 h1) (Z.lxor 255 h0) rc h2 ltac:(lia) C2 ltac:(rewrite T0; lia)) as (p2 & E2 & Q2).
  destruct (ha_slot s0 (g + 1 + 1 + 1 + 1) 3 kl dl (Z.lxor 255 h1) (Z.lxor (Z.lxor 255 h0) h2) rc h3 ltac:(lia) C3 ltac:(rewrite T0; lia)) as (p3 & E3 & Q3).
  destruct (ha_slot s0 (g + 1 + 1 + 1 + 1 + 1) 4 kl dl (Z.lxor (Z.lxor 255 h1) h3) (Z.lxor (Z.lxor 255 h0) h2) rc h4 ltac:(lia) C4 ltac:(rewrite T0; lia)) as (p4 & E4 & Q4).
  cbn [Z.odd Z.add Pos.add Pos.succ] in E0, E1, E2, E3, E4.
  assert (S3 := ha_tail s0 (g + 1 + 1 + 1 + 1 + 1 + 1) kl dl (Z.lxor (Z.lxor 255 h1) h3) (Z.lxor (Z.lxor (Z.lxor 255 h0) h2) h4) rc
     ltac:(lia) ltac:(rewrite T0; lia)). rewrite T0 in S3.
  do 5 eexists.
  replace (Z.to_nat (ha_len t)) with (Z.to_nat g + (S (S (S (S (S (S (Z.to_nat (tail_len t)))))))))%nat by (unfold ha_len; fold g; lia).
  rewrite (slots_app _ _ _ _ _ _ _ S1 (slots_cons _ _ _ _ _ _ S2 (slots_cons _ _ _ _ _ _ E0 (slots_cons _ _ _ _ _ _ E1
     (slots_cons _ _ _ _ _ _ E2 (slots_cons _ _ _ _ _ _ E3 (slots_cons _ _ _ _ _ _ E4 S3 eq_refl) eq_refl) eq_refl) eq_refl) eq_refl) eq_refl)).
  rewrite O2, Q0, Q1, Q2, Q3, Q4. cbn [app ha_reads check2 fst snd].
  replace (ha_len t) with (g + 1 + 1 + 1 + 1 + 1 + 1 + tail_len t) by (unfold ha_len; fold g; lia).
  reflexivity.
Qed.

(** One revolution. *)
Lemma read_track s ha r0 l : d_state s = PIndex -> d_count s = 0 -> d_cpos s = 0 -> d_step s = 0 ->
  length ha = 5%nat -> Forall ckd_ok (r0 :: l) -> cells (new_tstart s) 0 (track_bytes ha (r0 :: l)) -> fits (d_type s) r0 l ->
  exists tp rp kl dl a b rc,
  read_calls (14 * Z.to_nat (ty_bpt (d_type s) + 1)) s
  = Ok (core (new_tstart s) PIndex tp rp 0 0 kl dl a b rc false, track_reads (d_type s) ha r0 l).
Proof.
  intros ST C P T L K H F. pose proof (ty_facts (d_type s)) as TF.
  unfold track_bytes in H. apply cells_app in H. destruct H as [H1 H]. rewrite L in H. cbn [map concat] in H.
  rewrite <- app_assoc in H. apply cells_app in H. destruct H as [H2 H]. apply cells_app in H. destruct H as [H3 H4].
  inversion_clear K as [|? ? K1 K2]. unfold fits in F.
  set (t := d_type s) in *.
  assert (TL2 : 2 <= tail_len t <= 4) by (unfold tail_len, tail14; destruct t; cbn; lia).
  assert (HL : 0 < ha_len t) by (unfold ha_len; lia).
  assert (RL : 0 < r0_len t r0 /\ 5 + ckd_len r0 <= ha_len t + r0_len t r0).
  { rewrite ckd_len_eq. unfold r0_len, ha_len, body_len, field_len. destruct (k_key r0); cbn [length]; lia. }
  pose proof (rs_len_pos t l) as RS.
  destruct (read_ha_all s ha ST C P T L H1) as (kl & dl & a & b & rc & E1). fold t in E1.
  set (s0 := new_tstart s) in *. assert (T0 : d_type s0 = t) by reflexivity.
  destruct (read_r0 s0 r0 (ha_len t) kl dl a b rc H2 K1 ltac:(lia) ltac:(lia) ltac:(rewrite T0; lia)) as (kl1 & dl1 & a1 & b1 & E2).
  rewrite T0 in E2.
  change (0 + Z.of_nat 5) with 5 in H3, H4. fold (ckd_len r0) in H3, H4.
  destruct (read_rs l s0 (5 + ckd_len r0) 1 (ha_len t + r0_len t r0) kl1 dl1 a1 b1 H3 K2 ltac:(unfold ckd_len; lia) ltac:(lia) ltac:(lia)
     ltac:(rewrite T0; lia)) as (kl2 & dl2 & a2 & b2 & E3 & LE).
  rewrite T0 in E3, LE. change (u8 (1 - 1)) with 0 in E3.
  set (p := 5 + ckd_len r0 + Z.of_nat (length (concat (map ckd_bytes l)))) in *.
  set (cp := ha_len t + r0_len t r0 + rs_len t l) in *.
  destruct (read_endmark s0 p cp kl2 dl2 a2 b2 (u8 (1 - 1 + Z.of_nat (length l))) H4 ltac:(lia) ltac:(rewrite T0; lia)) as (a3 & b3 & E4).
  rewrite T0 in E4.
  assert (E5 := end_slots (Z.to_nat (ty_bpt t + 1 - (cp + ty_g2 t + 1))) s0 p p (cp + ty_g2 t + 1) kl2 dl2 a3 b3 (u8 (1 - 1 + Z.of_nat (length l)))
     ltac:(lia) ltac:(rewrite T0; lia) ltac:(lia)).
  do 7 eexists.
  replace (Z.to_nat (ty_bpt t + 1)) with
    (Z.to_nat (ha_len t) + (Z.to_nat (r0_len t r0) + (Z.to_nat (rs_len t l) + (Z.to_nat (ty_g2 t + 1)
       + Z.to_nat (ty_bpt t + 1 - (cp + ty_g2 t + 1))))))%nat by lia.
  rewrite (slots_app _ _ _ _ _ _ _ E1 (slots_app _ _ _ _ _ _ _ E2 (slots_app _ _ _ _ _ _ _ E3 (slots_app _ _ _ _ _ _ _ E4 E5)))).
  unfold track_reads. rewrite !app_nil_r. reflexivity.
Qed.
