From Verif Require Export D2841.Proofs.
Open Scope Z_scope.

(** The drives after an operation for the selected drive [c] only. *)
Definition disks_move (dk dk' : list (option dasd)) (L : nat -> list dop) : Prop :=
  length dk' = length dk /\ forall i d, nth_error dk i = Some d -> exists d', nth_error dk' i = Some d' /\ moved (L i) d d'.
Lemma move_refl dk : disks_move dk dk (fun _ => []).
Proof. split; [reflexivity|]. intros i [d|] H; [exists (Some d)|exists None]; split; try exact H; cbn; [exists d; auto|reflexivity]. Qed.
Lemma move_put dk i d d' l : nth_error dk i = Some (Some d) -> do_ops d l = Ok d' -> disks_move dk (set_nth i (Some d') dk) (fun j => if Nat.eqb j i then l else []).
Proof.
  intros H D. pose proof (nth_lt _ _ _ H) as L. split; [apply len_set; exact L|]. intros j x X. rewrite nth_set by exact L. destruct (Nat.eqb_spec j i) as [->|N].
  - rewrite H in X. injection X as <-. exists (Some d'). split; [reflexivity|]. exists d'. auto.
  - exists x. split; [exact X|]. destruct x; cbn; [eexists; split; reflexivity|reflexivity].
Qed.
Lemma do_ops_app d l1 l2 d1 : do_ops d l1 = Ok d1 -> do_ops d (l1 ++ l2) = do_ops d1 l2.
Proof. revert d. induction l1 as [|o l1 IH]; cbn [do_ops app]; intros d H; [injection H as ->; reflexivity|]. destruct (do_op d o); cbn [bind] in *; try discriminate. apply IH; exact H. Qed.
Lemma move_trans dk dk1 dk2 L1 L2 : disks_move dk dk1 L1 -> disks_move dk1 dk2 L2 -> disks_move dk dk2 (fun i => L1 i ++ L2 i).
Proof.
  intros [E1 M1] [E2 M2]. split; [congruence|]. intros i d H. destruct (M1 i d H) as (d1 & H1 & V1). destruct (M2 i d1 H1) as (d2 & H2 & V2). exists d2. split; [exact H2|].
  destruct d as [x|]; cbn in V1 |- *; [|subst d1; exact V2]. destruct V1 as (y & -> & V1). cbn in V2. destruct V2 as (z & -> & V2). exists z. split; [reflexivity|]. rewrite (do_ops_app _ _ _ _ V1). exact V2.
Qed.
Lemma move_cur dk dk' L c : disks_move dk dk' L -> (match c with None => True | Some i => exists d, nth_error dk i = Some (Some d) end) -> match c with None => True | Some i => exists d, nth_error dk' i = Some (Some d) end.
Proof. intros [_ M] H. destruct c as [i|]; [|exact I]. destruct H as [d H]. destruct (M i _ H) as (d' & H' & V). cbn in V. destruct V as (y & -> & _). eauto. Qed.

(** *** The destination *)
Definition regs_ok (s : ctx) : Prop := forall r, is_byte (c_r s r).
Lemma in_byte m : is_byte m -> is_byte (Z.lxor 255 m).
Proof. intros M. apply byte_lxor; [apply byte_c; reflexivity|exact M]. Qed.
Lemma clr_bit x m k : 0 <= k < 8 -> bit_of (Z.land x (Z.lxor 255 m)) k = bit_of x k && negb (bit_of m k).
Proof.
  intros K. unfold bit_of. rewrite Z.land_spec, Z.lxor_spec. assert (T : Z.testbit 255 (7 - k) = true) by (change 255 with (Z.ones 8); apply Z.ones_spec_low; lia). rewrite T. destruct (Z.testbit m (7 - k)); reflexivity.
Qed.
Lemma or_bit x m k : bit_of (Z.lor x m) k = bit_of x k || bit_of m k.
Proof. apply Z.lor_spec. Qed.
Definition tag_spec (m : mi) (old o new : Z) : Prop := forall k, 0 <= k < 8 -> bit_of new k = if bit_of o k then Z.testbit (CN m) 2 else bit_of old k.
Lemma tag_new m old o : is_byte old -> is_byte o -> let v := if Z.land (CN m) 4 =? 0 then Z.land old (Z.lxor 255 o) else Z.lor (Z.land old (Z.lxor 255 o)) o in tag_spec m old o v /\ is_byte v.
Proof.
  intros X O. assert (B : is_byte (Z.land old (Z.lxor 255 o))) by (apply byte_land; [unfold is_byte in X; lia|apply in_byte; exact O]).
  assert (T : (Z.land (CN m) 4 =? 0) = negb (Z.testbit (CN m) 2)).
  { pose proof (on_bit (setr GL (CN m) (new_ctrl 0)) GL 5 ltac:(lia)) as H. unfold on, bit_of in H. cbn [c_r setr set_r] in H. rewrite put_same in H. change (Z.shiftl 1 (7 - 5)) with 4 in H. change (7 - 5) with 2 in H. rewrite <- H. rewrite negb_involutive. reflexivity. }
  cbv zeta. rewrite T. destruct (Z.testbit (CN m) 2) eqn:E; cbn [negb].
  - split; [|apply byte_lor; assumption]. intros k K. rewrite E, or_bit, clr_bit by exact K. destruct (bit_of o k); rewrite ?andb_true_r, ?orb_true_r, ?orb_false_r; reflexivity.
  - split; [|exact B]. intros k K. rewrite E, clr_bit by exact K. destruct (bit_of o k); rewrite ?andb_false_r, ?andb_true_r; reflexivity.
Qed.

Definition is_tag (o : dop) : Prop := match o with OTags ft fc => is_byte ft /\ is_byte fc | OUpdate => True | _ => False end.
Record dest_facts (s s2 : ctx) (m : mi) : Prop := {
  df_form : exists f u cu dk sv, s2 = set_r f (set_unit u (set_cur cu (set_disk dk (set_svc sv s))));
  df_other : forall r, target (CD m) <> Some r -> c_r s2 r = c_r s r;
  df_target : forall r, target (CD m) = Some r -> r <> FT -> r <> FC -> c_r s2 r = c_alu s;
  df_tags : forall r, target (CD m) = Some r -> r = FT \/ r = FC -> tag_spec m (c_r s r) (c_alu s) (c_r s2 r);
  df_bytes : regs_ok s2;
  df_moves : exists L, disks_move (c_disk s) (c_disk s2) L /\ (forall i, c_cur s <> Some i -> L i = []) /\ (forall i, Forall is_tag (L i));
  df_cur : cur_ok s2;
  df_cur_same : CD m <> 10 -> c_cur s2 = c_cur s;
  df_svc : c_svc s2 = c_svc s || ((CD m =? 15) && bit_of (c_alu s) 0 && negb (c_srvi s)) }.
Lemma self s : set_r (c_r s) (set_unit (c_unit s) (set_cur (c_cur s) (set_disk (c_disk s) (set_svc (c_svc s) s)))) = s.
Proof. destruct s. reflexivity. Qed.
Lemma dest_target cd : 0 <= cd < 32 -> cd <> 10 -> cd <> 13 -> cd <> 14 -> cd <> 15 -> d_reg cd = target cd.
Proof. intros H N1 N2 N3 N4. assert (C : cd < 16 \/ 16 <= cd) by lia. destruct C as [C|C]; [assert (I : In cd [0;1;2;3;4;5;6;7;8;9;11;12]) by (cbn; lia); cbn in I; repeat destruct I as [I|I]; try contradiction; rewrite <- I; reflexivity|].
  unfold d_reg, target. rewrite nth_overflow by (cbn [length]; lia). repeat match goal with |- context [?x =? ?y] => destruct (Z.eqb_spec x y); [lia|] end. reflexivity.
Qed.
Lemma to_drive_form s b s2 : regs_ok s -> cur_ok s -> to_drive s b = Ok s2 -> exists dk L, s2 = set_disk dk s /\ disks_move (c_disk s) dk L /\ (forall i, c_cur s <> Some i -> L i = []) /\ (forall i, Forall is_tag (L i)).
Proof.
  intros R C H. unfold to_drive in H. destruct (c_cur s) as [i|] eqn:E.
  2: { injection H as <-. exists (c_disk s), (fun _ => []). split; [destruct s; reflexivity|]. split; [apply move_refl|]. split; auto. }
  unfold cur in H. rewrite E in H. unfold cur_ok in C. rewrite E in C. destruct C as [d C]. rewrite C in H. cbn [bind] in H. destruct (dasd_settags d (c_r s FT) (c_r s FC)) as [[d1 n]| |] eqn:E1; try discriminate. cbn [bind fst] in H.
  destruct (b && (c_r s FT =? 129) && on s FC 192).
  - destruct (dasd_update d1) as [d2| |] eqn:E2; try discriminate. injection H as <-. exists (set_nth i (Some d2) (c_disk s)), (fun j => if Nat.eqb j i then [OTags (c_r s FT) (c_r s FC); OUpdate] else []). split; [destruct s; reflexivity|]. split; [apply move_put with d; [exact C|]; cbn; rewrite E1; cbn; rewrite E2; reflexivity|].
    split; [intros j J; destruct (Nat.eqb_spec j i); [congruence|reflexivity]|]. intros j. destruct (Nat.eqb j i); repeat constructor; apply R.
  - injection H as <-. exists (set_nth i (Some d1) (c_disk s)), (fun j => if Nat.eqb j i then [OTags (c_r s FT) (c_r s FC)] else []). split; [destruct s; reflexivity|]. split; [apply move_put with d; [exact C|]; cbn; rewrite E1; reflexivity|].
    split; [intros j J; destruct (Nat.eqb_spec j i); [congruence|reflexivity]|]. intros j. destruct (Nat.eqb j i); repeat constructor; apply R.
Qed.
Lemma dest_ok s m s2 : regs_ok s -> is_byte (c_alu s) -> cur_ok s -> good_mi m -> dest s m = Ok s2 -> dest_facts s s2 m.
Proof.
  intros R AL CU (_ & _ & _ & _ & _ & _ & _ & HCD & _) H. unfold dest in H.
  assert (NM : exists L, disks_move (c_disk s) (c_disk s) L /\ (forall i, c_cur s <> Some i -> L i = []) /\ (forall i, Forall is_tag (L i))) by (exists (fun _ => []); split; [apply move_refl|split; auto]).
  destruct (Z.eqb_spec (CD m) 10) as [E|N10].
  { injection H as <-. set (s1 := setr UR (c_alu s) s).
    assert (F : exists u cu, select s1 = set_unit u (set_cur cu s1) /\ match cu with None => True | Some i => exists d, nth_error (c_disk s) i = Some (Some d) end).
    { unfold select. destruct (first_unit 8 0 (c_r s1 UR)) as [i|]; [|exists (c_unit s1), None; split; [destruct s1; reflexivity|exact I]]. exists (Z.of_nat i), (match nth_error (c_disk s1) i with Some (Some _) => Some i | _ => None end).
      split; [reflexivity|]. change (c_disk s1) with (c_disk s). destruct (nth_error (c_disk s) i) as [[d|]|] eqn:X; try exact I. eauto. }
    destruct F as (u & cu & -> & F). split; rewrite ?E; try exact NM.
    - exists (put UR (c_alu s) (c_r s)), u, cu, (c_disk s), (c_svc s). unfold s1. destruct s; reflexivity.
    - intros r X. apply put_other. intros ->. apply X. reflexivity.
    - intros r X _ _. injection X as <-. apply put_same.
    - intros r X [->| ->]; discriminate.
    - intros r. apply put_byte; auto.
    - exact F.
    - congruence.
    - cbn. rewrite orb_false_r. reflexivity. }
  destruct (Z.eqb_spec (CD m) 13) as [E|N13].
  { set (s1 := tag_reg FT s m) in *. destruct (tag_new m (c_r s FT) (c_alu s) (R FT) AL) as [T TB]. assert (R1 : regs_ok s1) by (intros r; apply put_byte; auto).
    destruct (to_drive_form s1 true s2 R1 CU H) as (dk & L & -> & M & M1 & M2). split; rewrite ?E.
    - exists (c_r s1), (c_unit s), (c_cur s), dk, (c_svc s). unfold s1, tag_reg. destruct s; reflexivity.
    - intros r X. apply put_other. intros ->. apply X. reflexivity.
    - intros r X. injection X as <-. congruence.
    - intros r X _. injection X as <-. cbn [c_r set_disk]. unfold s1, tag_reg. cbn [c_r setr set_r]. rewrite put_same. exact T.
    - exact R1.
    - exists L. auto.
    - exact (move_cur _ _ _ _ M CU).
    - reflexivity.
    - cbn. rewrite orb_false_r. reflexivity. }
  destruct (Z.eqb_spec (CD m) 14) as [E|N14].
  { set (s1 := tag_reg FC s m) in *. destruct (tag_new m (c_r s FC) (c_alu s) (R FC) AL) as [T TB]. assert (R1 : regs_ok s1) by (intros r; apply put_byte; auto).
    destruct (to_drive_form s1 false s2 R1 CU H) as (dk & L & -> & M & M1 & M2). split; rewrite ?E.
    - exists (c_r s1), (c_unit s), (c_cur s), dk, (c_svc s). unfold s1, tag_reg. destruct s; reflexivity.
    - intros r X. apply put_other. intros ->. apply X. reflexivity.
    - intros r X. injection X as <-. congruence.
    - intros r X _. injection X as <-. cbn [c_r set_disk]. unfold s1, tag_reg. cbn [c_r setr set_r]. rewrite put_same. exact T.
    - exact R1.
    - exists L. auto.
    - exact (move_cur _ _ _ _ M CU).
    - reflexivity.
    - cbn. rewrite orb_false_r. reflexivity. }
  destruct (Z.eqb_spec (CD m) 15) as [E|N15].
  { cbv zeta in H. set (s1 := setr IG (c_alu s) s) in *. apply (f_equal (fun x => match x with Ok y => y | _ => s end)) in H. cbv beta iota in H. subst s2. assert (R1 : regs_ok s1) by (intros r; apply put_byte; auto).
    assert (F : (if on s1 IG B0 && negb (c_srvi s1) then set_svc true s1 else s1) = set_svc (c_svc s || (bit_of (c_alu s) 0 && negb (c_srvi s))) s1).
    { change B0 with (Z.shiftl 1 (7 - 0)). rewrite on_bit by lia. unfold s1 at 1. cbn [c_r setr set_r]. rewrite put_same. change (c_srvi s1) with (c_srvi s). destruct (bit_of (c_alu s) 0 && negb (c_srvi s)); [rewrite orb_true_r; reflexivity|]. rewrite orb_false_r. unfold s1. destruct s; reflexivity. }
    rewrite F. split; rewrite ?E; try exact NM; try exact R1; try exact CU; try reflexivity.
    - exists (c_r s1), (c_unit s), (c_cur s), (c_disk s). eexists. unfold s1. destruct s; reflexivity.
    - intros r X. apply put_other. intros ->. apply X. reflexivity.
    - intros r X _ _. injection X as <-. apply put_same.
    - intros r X [->| ->]; discriminate. }
  rewrite (dest_target (CD m) HCD N10 N13 N14 N15) in H. assert (SV : c_svc s = c_svc s || ((CD m =? 15) && bit_of (c_alu s) 0 && negb (c_srvi s))) by (destruct (Z.eqb_spec (CD m) 15); [lia|]; rewrite orb_false_r; reflexivity).
  assert (NT : forall r, target (CD m) = Some r -> r <> FT /\ r <> FC).
  { intros r X. unfold target in X. repeat match type of X with context [?x =? ?y] => destruct (Z.eqb_spec x y); [first [lia | injection X as <-; split; discriminate]|] end. discriminate. }
  destruct (target (CD m)) as [r|] eqn:T.
  - injection H as <-. destruct (NT r eq_refl) as [NF NC]. split; try exact NM; try exact CU; try exact SV; try reflexivity; rewrite ?T.
    + exists (put r (c_alu s) (c_r s)), (c_unit s), (c_cur s), (c_disk s), (c_svc s). destruct s; reflexivity.
    + intros x X. apply put_other. congruence.
    + intros x X _ _. injection X as <-. apply put_same.
    + intros x X. injection X as <-. intros [?|?]; congruence.
    + intros x. apply put_byte; auto.
  - injection H as <-. split; try exact NM; try exact CU; try exact SV; try reflexivity; rewrite ?T; try discriminate; try exact R.
    + exists (c_r s), (c_unit s), (c_cur s), (c_disk s), (c_svc s). symmetry. apply self.
Qed.
