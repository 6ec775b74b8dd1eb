(** Formatting and attaching: proofs. *)
From Verif Require Export Dasd.Frame.

(** *** The cylinder buffer while it is filled *)

Lemma blit_ok b p l : 0 <= p -> p + Z.of_nat (length l) <= Z.of_nat (length b) ->
  exists b', blit b p l = Ok b' /\ length b' = length b /\ forall i, (i < Z.to_nat p)%nat -> nth_error b' i = nth_error b i.
Proof.
  intros H1 H2. unfold blit. replace ((0 <=? p) && (p + Z.of_nat (length l) <=? Z.of_nat (length b))) with true by lia.
  eexists. split; [reflexivity|]. split.
  - rewrite !app_length, firstn_length, skipn_length. lia.
  - intros i H. rewrite nth_error_app1 by (rewrite firstn_length; lia). apply nth_firstn. lia.
Qed.

Lemma a2e_ok c : 0 <= c < 128 -> exists v, tab ascii_to_ebcdic c = Ok v.
Proof. intros H. apply tab_ok. exact H. Qed.

Lemma vol_bytes_ok label : label_ok label -> forall l p, exists v, vol_bytes label p l = Ok v /\ length v = length l.
Proof.
  intros [LL LF] l. induction l as [|x l IH]; intros p; cbn [vol_bytes].
  - exists []. split; reflexivity.
  - destruct (IH (S p)) as (v & E & L).
    assert (X : exists y, (if (Nat.leb 8 p && Nat.leb p 16)%bool then
        match nth_error label (p - 8) with
        | Some c => if c =? 0 then Ok x else if c <? 128 then tab ascii_to_ebcdic c else UB
        | None => UB
        end else Ok x) = Ok y).
    { destruct (Nat.leb 8 p && Nat.leb p 16)%bool eqn:B; [|eauto].
      destruct (nth_error label (p - 8)) as [c|] eqn:N.
      - assert (R : 0 <= c < 128) by (rewrite Forall_forall in LF; apply LF; eapply nth_error_In; exact N).
        destruct (c =? 0); [eauto|]. replace (c <? 128) with true by lia. apply a2e_ok, R.
      - apply nth_error_None in N. apply andb_true_iff in B. destruct B as [B1 B2]. apply Nat.leb_le in B1, B2. lia. }
    destruct X as (y & ->). cbn [bind]. rewrite E. cbn [bind]. exists (y :: v). split; [reflexivity|]. cbn. congruence.
Qed.

Lemma track_ok b label flag c h pos : label_ok label -> 0 <= pos -> pos + 309 <= Z.of_nat (length b) ->
  exists b', format_track b label flag c h pos = Ok b' /\ length b' = length b
  /\ forall i, (i < Z.to_nat pos)%nat -> nth_error b' i = nth_error b i.
Proof.
  intros LO H1 H2. unfold format_track.
  destruct (blit_ok b pos ([0] ++ cchh c h ++ cchh c h ++ [0; 0; 0; 8]) H1 ltac:(cbn; lia)) as (b1 & -> & L1 & N1). cbn [bind].
  destruct ((c =? 0) && (h =? 0) && flag).
  - destruct (blit_ok b1 (pos + 21) (cchh c h ++ [1; 4; 0; 24] ++ ipl1rec ++ cchh c h ++ [2; 4; 0; 144] ++ ipl2key) ltac:(lia) ltac:(cbn; lia))
      as (b2 & -> & L2 & N2). cbn [bind].
    destruct (vol_bytes_ok label LO volrec 0) as (v & -> & LV). cbn [bind].
    destruct (blit_ok b2 (pos + 21 + 48 + 144) (cchh c h ++ [3; 4; 0; 80] ++ v ++ [255; 255; 255; 255]) ltac:(lia)
      ltac:(rewrite !app_length, LV; cbn; lia)) as (b3 & -> & L3 & N3).
    exists b3. split; [reflexivity|]. split; [congruence|]. intros i H. rewrite N3, N2, N1 by lia. reflexivity.
  - destruct (blit_ok b1 (pos + 21) (cchh c h ++ [1; 0; 0; 0] ++ [255; 255; 255; 255]) ltac:(lia) ltac:(cbn; lia)) as (b2 & -> & L2 & N2).
    exists b2. split; [reflexivity|]. split; [congruence|]. intros i H. rewrite N2, N1 by lia. reflexivity.
Qed.

Lemma heads_ok n : forall b label flag tsize c h, label_ok label -> 309 <= tsize -> 0 <= h ->
  tsize * (h + Z.of_nat n) <= Z.of_nat (length b) ->
  exists b', format_heads n b label flag tsize c h = Ok b' /\ length b' = length b
  /\ forall i, (i < Z.to_nat (tsize * h))%nat -> nth_error b' i = nth_error b i.
Proof.
  induction n as [|n IH]; intros b label flag tsize c h LO T H L; cbn [format_heads].
  - exists b. auto.
  - assert (T1 : 0 <= tsize * h) by nia. assert (T2 : tsize * h + tsize <= Z.of_nat (length b)) by nia.
    destruct (track_ok b label flag c h (tsize * h) LO T1 ltac:(lia)) as (b1 & -> & L1 & N1). cbn [bind].
    destruct (IH b1 label flag tsize c (h + 1) LO T ltac:(lia) ltac:(rewrite L1; replace (h + 1 + Z.of_nat n) with (h + Z.of_nat (S n)) by lia; exact L))
      as (b2 & E & L2 & N2).
    exists b2. split; [exact E|]. split; [congruence|]. intros i I. rewrite N2 by nia. apply N1. lia.
Qed.

Lemma cyls_ok n : forall b label flag t c, label_ok label -> length b = Z.to_nat (cyl_size t) ->
  exists w b', format_cyls n b label flag t c = Ok (w, b') /\ length w = (n * Z.to_nat (cyl_size t))%nat
   /\ length b' = Z.to_nat (cyl_size t).
Proof.
  induction n as [|n IH]; intros b label flag t c LO L; cbn [format_cyls].
  - exists [], b. auto.
  - pose proof (ty_facts t) as TF. pose proof (cyl_small t) as CS. fold (cyl_size t).
    destruct (heads_ok (Z.to_nat (ty_heads t)) b label flag (ty_tsize t) c 0 LO ltac:(lia) ltac:(lia)) as (b1 & -> & L1 & _).
    { rewrite L. unfold cyl_size in *. lia. }
    cbn [bind].
    destruct (IH (repeat 0 (Z.to_nat (cyl_size t)) ++ skipn (Z.to_nat (cyl_size t)) b1) label flag t (c + 1) LO) as (w & b' & -> & L2 & L3).
    { rewrite app_length, repeat_length, skipn_length. lia. }
    cbn [bind]. eexists _, b'. split; [reflexivity|]. split; [|exact L3]. rewrite app_length, firstn_length, L2. lia.
Qed.

(** The first cylinder. *)
Definition vol_rec (v : list Z) : list Z :=
  [0] ++ cchh 0 0 ++ cchh 0 0 ++ [0; 0; 0; 8] ++ repeat 0 8 ++ cchh 0 0 ++ [1; 4; 0; 24] ++ ipl1rec ++ cchh 0 0 ++ [2; 4; 0; 144] ++ ipl2key
  ++ repeat 0 144 ++ cchh 0 0 ++ [3; 4; 0; 80] ++ v ++ [255; 255; 255; 255].
Definition no_vol_rec : list Z :=
  [0] ++ cchh 0 0 ++ cchh 0 0 ++ [0; 0; 0; 8] ++ repeat 0 8 ++ cchh 0 0 ++ [1; 0; 0; 0; 255; 255; 255; 255] ++ repeat 0 276.

Lemma blit_at b q pre mid post l : b = pre ++ mid ++ post -> q = Z.of_nat (length pre) -> length l = length mid ->
  blit b q l = Ok (pre ++ l ++ post).
Proof.
  intros -> -> L. unfold blit. rewrite !app_length.
  replace ((0 <=? Z.of_nat (length pre)) && (Z.of_nat (length pre) + Z.of_nat (length l) <=? Z.of_nat (length pre + (length mid + length post)))) with true by lia.
  rewrite Nat2Z.id. rewrite firstn_app, Nat.sub_diag, firstn_all. cbn [firstn]. rewrite app_nil_r.
  assert (S : skipn (length pre + length l) (pre ++ mid ++ post) = post); [|rewrite S; reflexivity].
  rewrite (app_assoc pre mid post), skipn_app, app_length, L, Nat.sub_diag. rewrite skipn_all2 by (rewrite app_length; lia). reflexivity.
Qed.

Lemma first_track label flag post : label_ok label ->
  exists v, vol_bytes label 0 volrec = Ok v /\ length v = 84%nat /\
  format_track (repeat 0 309 ++ post) label flag 0 0 0 = Ok ((if flag then vol_rec v else no_vol_rec) ++ post).
Proof.
  intros LO. destruct (vol_bytes_ok label LO volrec 0) as (v & E & L). exists v. split; [exact E|]. split; [exact L|].
  unfold format_track. rewrite E.
  set (h := [0] ++ cchh 0 0 ++ cchh 0 0 ++ [0; 0; 0; 8]).
  rewrite (blit_at _ _ [] (repeat 0 13) (repeat 0 296 ++ post)) by
    (reflexivity || (cbn [app]; rewrite app_assoc, <- repeat_app; reflexivity)). cbn [bind Z.eqb andb].
  change (0 + 21) with 21. change (21 + 48 + 144) with 213.
  destruct flag.
  - set (i := cchh 0 0 ++ [1; 4; 0; 24] ++ ipl1rec ++ cchh 0 0 ++ [2; 4; 0; 144] ++ ipl2key).
    rewrite (blit_at _ _ (h ++ repeat 0 8) (repeat 0 48) (repeat 0 240 ++ post)) by
      (reflexivity || (cbn [app]; rewrite <- !app_assoc; f_equal; rewrite !app_assoc, <- !repeat_app; reflexivity)). cbn [bind].
    set (r := cchh 0 0 ++ [3; 4; 0; 80] ++ v ++ [255; 255; 255; 255]).
    assert (LR : length r = 96%nat) by (unfold r; rewrite !app_length, L; reflexivity).
    rewrite (blit_at _ _ (h ++ repeat 0 8 ++ i ++ repeat 0 144) (repeat 0 96) post) by
      (reflexivity || exact LR || (rewrite <- !app_assoc; do 3 f_equal; rewrite !app_assoc, <- !repeat_app; reflexivity)).
    unfold vol_rec. fold r. unfold h, i. rewrite <- !app_assoc. reflexivity.
  - rewrite (blit_at _ _ (h ++ repeat 0 8) (repeat 0 12) (repeat 0 276 ++ post)) by
      (reflexivity || (cbn [app]; rewrite <- !app_assoc; f_equal; rewrite !app_assoc, <- !repeat_app; reflexivity)).
    unfold no_vol_rec, h. rewrite <- !app_assoc. reflexivity.
Qed.

Lemma firstn_ext {A} (l m : list A) n : (forall i, (i < n)%nat -> nth_error l i = nth_error m i) -> firstn n l = firstn n m.
Proof.
  intros H. apply list_ext. intros i. destruct (le_lt_dec n i) as [L|L].
  - transitivity (@None A); [|symmetry]; apply nth_error_None; rewrite firstn_length; lia.
  - rewrite !nth_firstn by exact L. apply H, L.
Qed.

(** A whole new pack. *)
Lemma cyls_first label flag t n : label_ok label ->
  exists v w b' rest, vol_bytes label 0 volrec = Ok v /\ length v = 84%nat
  /\ format_cyls (S n) (repeat 0 (Z.to_nat (cyl_size t))) label flag t 0 = Ok (w, b')
  /\ length b' = Z.to_nat (cyl_size t) /\ length w = (S n * Z.to_nat (cyl_size t))%nat
  /\ firstn (Z.to_nat (cyl_size t)) w = (if flag then vol_rec v else no_vol_rec) ++ rest.
Proof.
  intros LO. pose proof (ty_facts t) as TF. pose proof (cyl_small t) as CS.
  set (len := Z.to_nat (cyl_size t)).
  assert (CL : (309 <= len)%nat) by (unfold len, cyl_size in *; nia).
  destruct (first_track label flag (repeat 0 (len - 309)) LO) as (v & EV & LV & ET).
  set (p := if flag then vol_rec v else no_vol_rec) in *.
  assert (LP : length p = 309%nat) by (unfold p; destruct flag; [unfold vol_rec; rewrite !app_length, LV|]; reflexivity).
  assert (HS : exists m, Z.to_nat (ty_heads t) = S m) by (exists (Nat.pred (Z.to_nat (ty_heads t))); lia). destruct HS as (m & HS).
  assert (LB : length (p ++ repeat 0 (len - 309)) = len) by (rewrite app_length, repeat_length; lia).
  destruct (heads_ok m (p ++ repeat 0 (len - 309)) label flag (ty_tsize t) 0 1 LO ltac:(lia) ltac:(lia)) as (b1 & E1 & L1 & N1).
  { rewrite LB. unfold len, cyl_size in *. replace (1 + Z.of_nat m) with (ty_heads t) by lia. lia. }
  destruct (cyls_ok n (repeat 0 len ++ skipn len b1) label flag t 1 LO) as (w & b' & E2 & L2 & L3).
  { rewrite app_length, repeat_length, skipn_length. unfold len in *. lia. }
  exists v, (firstn len b1 ++ w), b', (skipn 309 b1).
  split; [exact EV|]. split; [exact LV|]. split.
  { cbn [format_cyls]. fold (cyl_size t). fold len. rewrite HS. cbn [format_heads]. rewrite Z.mul_0_r.
    replace (repeat 0 len) with (repeat 0 309 ++ repeat 0 (len - 309)) at 1 by (rewrite <- repeat_app; f_equal; lia).
    rewrite ET. cbn [bind]. change (0 + 1) with 1. rewrite E1. cbn [bind]. rewrite E2. reflexivity. }
  split; [exact L3|]. split.
  { rewrite app_length, firstn_length, L2. fold len. lia. }
  rewrite firstn_app, firstn_length, firstn_firstn, Nat.min_id. rewrite L1, LB, Nat.min_id, Nat.sub_diag, firstn_O, app_nil_r.
  rewrite firstn_all2 by lia. rewrite <- (firstn_skipn 309 b1) at 1. f_equal.
  rewrite (firstn_ext _ (p ++ repeat 0 (len - 309))).
  - rewrite <- LP, firstn_app, Nat.sub_diag, firstn_O, app_nil_r. apply firstn_all.
  - intros i I. apply N1. unfold cyl_size in *. lia.
Qed.

(** *** The volume id *)

Lemma getb_app s p r i v : d_cbuf s = p ++ r -> 0 <= i -> nth_error p (Z.to_nat i) = Some v -> getb s i = Ok v.
Proof.
  intros E H N. unfold getb, tab. rewrite E. replace (i <? 0) with false by lia. rewrite (nth_error_app_l _ _ _ _ N). reflexivity.
Qed.

Lemma volid_none s rest : d_cbuf s = no_vol_rec ++ rest -> read_volid s = Ok s.
Proof.
  intros E. unfold read_volid, skip_rec.
  do 20 (match goal with |- context [getb s ?i] => erewrite (getb_app s no_vol_rec rest i) by (exact E || lia || (vm_compute; reflexivity)); cbn [bind] end || idtac).
  all: try reflexivity.
Qed.
