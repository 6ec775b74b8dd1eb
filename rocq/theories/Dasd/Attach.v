(** Attaching a formatted pack: proofs. *)
From Verif Require Export Dasd.Format.
From Verif Require Import Xlat.Props.

(** *** The volume record *)

Lemma vol_bytes_app label a : forall p b,
  vol_bytes label p (a ++ b) =
  (let* x := vol_bytes label p a in let* y := vol_bytes label (p + length a) b in Ok (x ++ y)).
Proof.
  induction a as [|v a IH]; intros p b.
  - cbn [app vol_bytes bind length]. rewrite Nat.add_0_r. destruct (vol_bytes label p b); reflexivity.
  - cbn [app vol_bytes length]. rewrite IH. replace (S p + length a)%nat with (p + S (length a))%nat by lia.
    match goal with |- bind ?x _ = _ => destruct x as [y| |]; cbn [bind]; try reflexivity end.
    destruct (vol_bytes label (S p) a) as [x| |]; cbn [bind]; try reflexivity.
    destruct (vol_bytes label (p + S (length a)) b) as [z| |]; reflexivity.
Qed.

Lemma vol_bytes_late label l : forall p, (17 <= p)%nat -> vol_bytes label p l = Ok l.
Proof.
  induction l as [|v l IH]; intros p H; [reflexivity|]. cbn [vol_bytes]. 
  replace (Nat.leb p 16) with false by (symmetry; apply Nat.leb_gt; lia). rewrite andb_false_r. cbn [bind].
  rewrite IH by lia. reflexivity.
Qed.

Definition cell (c v : Z) : res Z := if c =? 0 then Ok v else if c <? 128 then tab ascii_to_ebcdic c else UB.

(** The eight cells of the volume id. *)
Fixpoint cells8 (label l : list Z) : res (list Z) :=
  match label, l with
  | c :: label, v :: l => let* x := cell c v in let* r := cells8 label l in Ok (x :: r)
  | _, _ => Ok []
  end.

Lemma vol_bytes_is label v : length label = 9%nat -> nth_error label 8 = Some 0 -> vol_bytes label 0 volrec = Ok v ->
  exists e, cells8 (firstn 8 label) (firstn 8 (skipn 8 volrec)) = Ok e /\ length e = 8%nat /\ v = firstn 8 volrec ++ e ++ skipn 16 volrec.
Proof.
  intros L Z8 H.
  do 9 (destruct label as [|? label]; [discriminate L|]). destruct label; [|discriminate L]. cbn in Z8. injection Z8 as ->.
  replace volrec with (firstn 8 volrec ++ firstn 8 (skipn 8 volrec) ++ skipn 16 volrec) in H at 1 by reflexivity.
  rewrite vol_bytes_app in H. change (vol_bytes _ 0 (firstn 8 volrec)) with (Ok (firstn 8 volrec)) in H. cbn [bind] in H.
  rewrite vol_bytes_app in H. replace (0 + length (firstn 8 volrec))%nat with 8%nat in H by reflexivity.
  replace (8 + length (firstn 8 (skipn 8 volrec)))%nat with 16%nat in H by reflexivity.
  change (skipn 16 volrec) with (0 :: skipn 17 volrec) in H.
  cbn [vol_bytes Nat.leb andb Nat.sub nth_error Z.eqb] in H.
  rewrite (vol_bytes_late _ (skipn 17 volrec)) in H by lia. cbn [bind] in H.
  change (0 :: skipn 17 volrec) with (skipn 16 volrec) in H.
  set (q := skipn 16 volrec) in *. set (h := firstn 8 volrec) in *. clearbody q h.
  change (firstn 8 (skipn 8 volrec)) with [241;241;241;241;241;241;64;0] in *.
  cbn [vol_bytes Nat.leb andb Nat.sub nth_error cells8 firstn] in *.
  repeat match type of H with context [if ?c =? 0 then Ok ?v else if ?c <? 128 then tab ascii_to_ebcdic ?c else UB] =>
    change (if c =? 0 then Ok v else if c <? 128 then tab ascii_to_ebcdic c else UB) with (cell c v) in H end.
  do 8 (match goal with |- context [bind (cell ?c ?v) _] => destruct (cell c v) as [?| |]; cbn [bind] in H |- *; try discriminate H end).
  injection H as <-. eexists. split; [reflexivity|]. split; reflexivity.
Qed.

Lemma cells8_byte label : Forall (fun c => 0 <= c < 128) label -> forall l e, Forall byte l -> cells8 label l = Ok e -> Forall byte e.
Proof.
  intros F. induction F as [|c label C F IH]; intros l e B H; cbn [cells8] in H; [injection H as <-; constructor|].
  destruct B as [|v l V B]; [injection H as <-; constructor|].
  destruct (cell c v) as [x| |] eqn:E; cbn [bind] in H; try discriminate H.
  destruct (cells8 label l) as [r| |] eqn:R; cbn [bind] in H; try discriminate H. injection H as <-.
  constructor; [|exact (IH _ _ B R)]. unfold cell in E. destruct (c =? 0); [injection E as <-; exact V|].
  replace (c <? 128) with true in E by lia. 
  pose proof (sweep 128 (fun c => match tab ascii_to_ebcdic c with Ok x => (0 <=? x) && (x <? 256) | _ => false end) 
    ltac:(vm_compute; reflexivity) c C) as S. cbn beta in S. rewrite E in S. unfold byte. lia.
Qed.

Lemma cells8_back l : forall label e, Forall label_char label -> length label = length l -> cells8 label l = Ok e -> to_ascii e = Ok label.
Proof.
  induction l as [|v l IH]; intros label e F L H; destruct label as [|c label]; try discriminate L; cbn [cells8] in H.
  - injection H as <-. reflexivity.
  - inversion F as [|? ? C F']. subst. destruct C as (C1 & C2 & C3 & C4).
    unfold cell in H. replace (c =? 0) with false in H by lia. replace (c <? 128) with true in H by lia.
    pose proof (C08_ascii_ebcdic_round_trip_partial c C1 C2 C3 C4) as R. unfold there_and_back in R.
    destruct (tab ascii_to_ebcdic c) as [x| |]; cbn [bind] in H, R; try discriminate R.
    destruct (cells8 label l) as [r| |] eqn:E; cbn [bind] in H; try discriminate H. injection H as <-.
    cbn [to_ascii]. rewrite R. cbn [bind]. cbn [length] in L. rewrite (IH label r F' ltac:(lia) E). reflexivity.
Qed.

Lemma to_ascii_ok e : Forall byte e -> exists l, to_ascii e = Ok l /\ length l = length e.
Proof.
  induction 1 as [|x e X F (l & E & L)]; [exists []; split; reflexivity|]. cbn [to_ascii].
  destruct (tab_ok ebcdic_to_ascii x X) as (a & ->). cbn [bind]. rewrite E. cbn [bind]. exists (a :: l). split; [reflexivity|]. cbn. congruence.
Qed.

Lemma volid_found s e rest : length e = 8%nat -> d_cbuf s = vol_rec (firstn 8 volrec ++ e ++ skipn 16 volrec) ++ rest ->
  read_volid s = (let* v := to_ascii e in Ok (set_label s (v ++ [0]))).
Proof.
  intros L E. do 8 (destruct e as [|? e]; [discriminate L|]). destruct e; [|discriminate L].
  unfold read_volid, skip_rec.
  repeat (match goal with |- context [getb s ?i] => erewrite (getb_app s _ rest i) by (exact E || lia || (vm_compute; reflexivity)) end; cbn [bind]).
  cbn [Z.eqb Pos.eqb bind].
  repeat (match goal with |- context [getb s ?i] => erewrite (getb_app s _ rest i) by (exact E || lia || (vm_compute; reflexivity)) end; cbn [bind Z.eqb Pos.eqb]).
  cbn [firstn volrec app same_bytes].
  repeat (match goal with |- context [getb s ?i] => erewrite (getb_app s _ rest i) by (exact E || lia || (vm_compute; reflexivity)) end; cbn [bind Z.eqb Pos.eqb]).
  cbn [get_bytes].
  repeat (match goal with |- context [getb s ?i] => erewrite (getb_app s _ rest i) by (exact E || lia || (vm_compute; reflexivity)) end; cbn [bind Z.eqb Pos.eqb]).
  reflexivity.
Qed.

(** *** dasd_attach behind the formatting *)

Definition attach_rest (s : dasd) : res dasd :=
  let f := match d_file s with Some f => f | None => [] end in
  let heads := header_field f 8 4 in
  let tracksize := header_field f 12 4 in
  let devtype := header_field f 16 1 in
  let s := match find (ty_match heads tracksize devtype (Z.of_nat (length f))) all_types with
           | Some t => set_type s t
           | None => s
           end in
  let tsize := u32 (tracksize * heads) in
  let s := set_tsize s tracksize in
  let s := match d_cbuf s with [] => set_cbuf s (repeat 0 (Z.to_nat tsize)) | _ => s end in
  let* s := file_read s 512 tsize in
  let s := set_fpos s 512 in
  let s := set_tstart (set_cyl (set_status s 160) 0) 0 in
  read_volid s.

Lemma attach_is s f init : dasd_attach s f init =
  (let* s := if is_header f && negb init then Ok (set_file s (Some f)) else dasd_format (set_file s (Some f)) init in attach_rest s).
Proof. reflexivity. Qed.

Lemma header_len t : length (header t) = 512%nat. Proof. destruct t; reflexivity. Qed.
Lemma header_heads t r : header_field (header t ++ r) 8 4 = ty_heads t. Proof. destruct t; reflexivity. Qed.
Lemma header_tsize t r : header_field (header t ++ r) 12 4 = ty_tsize t. Proof. destruct t; reflexivity. Qed.
Lemma header_dev t r : header_field (header t ++ r) 16 1 = ty_dev t. Proof. destruct t; reflexivity. Qed.
Lemma header_is t r : is_header (header t ++ r) = true.
Proof.
  unfold is_header. rewrite app_length, header_len. replace (Nat.leb 512 (512 + length r)) with true by (symmetry; apply Nat.leb_le; lia).
  replace (firstn 8 (header t ++ r)) with magic by (destruct t; reflexivity). destruct (list_eq_dec Z.eq_dec magic magic); [reflexivity|congruence].
Qed.
Lemma find_same t h z n u : find (ty_match h z (ty_dev t) n) all_types = Some u -> u = t.
Proof.
  intros E. apply find_some in E. destruct E as [_ E]. unfold ty_match in E. destruct t, u; cbn in E; try discriminate E; reflexivity.
Qed.

(** What the first cylinder starts with, and the label that is found there. *)
Definition starts (c : list Z) (lab : option (list Z)) : Prop :=
  (lab = None /\ exists r, c = no_vol_rec ++ r) \/
  (exists e l r, length e = 8%nat /\ c = vol_rec (firstn 8 volrec ++ e ++ skipn 16 volrec) ++ r /\ to_ascii e = Ok l /\ lab = Some (l ++ [0])).

Lemma volid_starts s lab : starts (d_cbuf s) lab ->
  read_volid s = Ok (match lab with Some l => set_label s l | None => s end).
Proof.
  intros [(-> & r & E) | (e & l & r & L & E & A & ->)].
  - exact (volid_none s r E).
  - rewrite (volid_found s e r L E), A. reflexivity.
Qed.

Lemma rest_ok s t w lab : d_type s = t -> d_file s = Some (header t ++ w) ->
  d_cbuf s = [] \/ length (d_cbuf s) = Z.to_nat (cyl_size t) ->
  (Z.to_nat (cyl_size t) <= length w)%nat -> starts (firstn (Z.to_nat (cyl_size t)) w) lab ->
  exists s', attach_rest s = Ok s' /\ d_type s' = t /\ d_file s' = Some (header t ++ w)
    /\ d_cbuf s' = firstn (Z.to_nat (cyl_size t)) w
    /\ d_tsize s' = ty_tsize t /\ d_fpos s' = 512 /\ d_cyl s' = 0 /\ d_tstart s' = 0 /\ d_status s' = 160
    /\ d_ncyl s' = d_ncyl s /\ d_head s' = d_head s /\ d_dirty s' = d_dirty s
    /\ d_state s' = d_state s /\ d_cpos s' = d_cpos s /\ d_count s' = d_count s /\ d_tpos s' = d_tpos s /\ d_step s' = d_step s
    /\ d_label s' = match lab with Some l => l | None => d_label s end.
Proof.
  intros T F B LW ST. pose proof (cyl_small t) as CS. pose proof (ty_facts t) as TF.
  unfold attach_rest. rewrite F, header_heads, header_tsize, header_dev.
  assert (U : u32 (ty_tsize t * ty_heads t) = cyl_size t) by (apply u32_small; unfold cyl_size in *; lia). rewrite U.
  set (n := Z.of_nat (length (header t ++ w))).
  assert (X : match find (ty_match (ty_heads t) (ty_tsize t) (ty_dev t) n) all_types with Some t0 => set_type s t0 | None => s end = s).
  { destruct (find _ _) as [u|] eqn:E; [|reflexivity]. apply find_same in E. subst u t. destruct s; reflexivity. }
  rewrite X. clear X.
  set (len := Z.to_nat (cyl_size t)) in *.
  set (s1 := match d_cbuf (set_tsize s (ty_tsize t)) with [] => _ | _ => _ end).
  assert (S1 : length (d_cbuf s1) = len /\ d_file s1 = Some (header t ++ w) /\ d_type s1 = t /\ d_tsize s1 = ty_tsize t /\ d_ncyl s1 = d_ncyl s /\ d_head s1 = d_head s
     /\ d_dirty s1 = d_dirty s /\ d_state s1 = d_state s /\ d_cpos s1 = d_cpos s /\ d_count s1 = d_count s /\ d_tpos s1 = d_tpos s /\ d_step s1 = d_step s /\ d_label s1 = d_label s).
  { unfold s1. destruct s; cbn in *. destruct B as [->|B].
    - cbn. rewrite repeat_length. subst. repeat split; auto.
    - destruct d_cbuf.
      + cbn in B. unfold cyl_size in *. lia.
      + cbn. subst. repeat split; auto. }
  clearbody s1. destruct S1 as (L1 & F1 & T1 & Z1 & N1 & H1 & D1 & A1 & P1 & C1 & Q1 & E1 & G1).
  unfold file_read. rewrite F1.
  replace (skipn (Z.to_nat 512) (header t ++ w)) with w.
  2:{ rewrite skipn_app, skipn_all2 by (rewrite header_len; lia). rewrite header_len. replace (Z.to_nat 512 - 512)%nat with 0%nat by lia. reflexivity. }
  fold len. rewrite firstn_length, L1. replace (Z.of_nat (Nat.min len (length w)) <=? Z.of_nat len) with true by lia. cbn [bind].
  rewrite (skipn_all2 (d_cbuf s1)) by lia. rewrite app_nil_r.
  set (s2 := set_tstart _ 0). rewrite (volid_starts s2 lab).
  2:{ unfold s2. destruct s1; exact ST. }
  eexists. split; [reflexivity|].
  destruct lab; unfold s2; destruct s1; cbn in *; repeat split; auto.
Qed.

Definition on_pack (t : dtype) (f : list Z) (lab : option (list Z)) (s s' : dasd) : Prop :=
  d_type s' = t /\ mounted s' /\ image s' = f /\ d_cyl s' = 0 /\ d_tstart s' = 0 /\ d_status s' = 160
  /\ d_cbuf s' = cyl_of t 0 f
  /\ d_ncyl s' = d_ncyl s /\ d_head s' = d_head s /\ d_dirty s' = d_dirty s
  /\ d_state s' = d_state s /\ d_cpos s' = d_cpos s /\ d_count s' = d_count s /\ d_tpos s' = d_tpos s /\ d_step s' = d_step s
  /\ d_label s' = match lab with Some l => l | None => d_label s end.

Lemma rest_on s t w lab : d_type s = t -> d_file s = Some (header t ++ w) ->
  d_cbuf s = [] \/ length (d_cbuf s) = Z.to_nat (cyl_size t) ->
  0 <= d_ncyl s < 256 -> 0 <= d_head s < ty_heads (d_type s) ->
  (Z.to_nat (cyl_size t) <= length w)%nat -> starts (firstn (Z.to_nat (cyl_size t)) w) lab ->
  exists s', attach_rest s = Ok s' /\ on_pack t (header t ++ w) lab s s'.
Proof.
  intros T F B N H LW ST. destruct (rest_ok s t w lab T F B LW ST) as (s' & E & T' & F' & C' & Z' & P' & Y' & S' & U' & N' & H' & R).
  pose proof (cyl_small t) as CS.
  exists s'. split; [exact E|]. split; [exact T'|]. split.
  { unfold mounted. rewrite T', C', Z', P', Y', N', H', F'. rewrite T in H. rewrite firstn_length. repeat split; try lia. eauto. }
  unfold image. rewrite F'. split; [reflexivity|]. split; [exact Y'|]. split; [exact S'|]. split; [exact U'|]. split.
  { rewrite C'. unfold cyl_of. rewrite Z.mul_0_l, Z.add_0_r. reflexivity. }
  intuition.
Qed.

(** A pack dasd_format has made: header, cylinders and perhaps more; [lab] is the label on it. *)
Definition made (t : dtype) (lab : option (list Z)) (f : list Z) : Prop :=
  exists w, f = header t ++ w /\ (Z.to_nat (ty_cyl t) * Z.to_nat (cyl_size t) <= length w)%nat
  /\ starts (firstn (Z.to_nat (cyl_size t)) w) lab.

Lemma ty_cyl_pos t : exists n, Z.to_nat (ty_cyl t) = S n. Proof. destruct t; eexists; reflexivity. Qed.

Lemma over_0 f b : over f 0 b = b ++ skipn (length b) f. Proof. reflexivity. Qed.

(** The label a pack gets from a drive. *)
Definition gets (init : bool) (label : list Z) (lab : option (list Z)) : Prop :=
  if init then exists l, lab = Some (l ++ [0]) /\ length l = 8%nat
    /\ (Forall label_char (firstn 8 label) -> l = firstn 8 label)
  else lab = None.

Lemma format_made s init : no_pack s -> exists s1 lab, dasd_format s init = Ok s1 /\ made (d_type s) lab (image s1) /\ gets init (d_label s) lab
  /\ (d_file s = Some [] -> Z.of_nat (length (image s1)) = 512 + ty_cyl (d_type s) * cyl_size (d_type s))
  /\ d_file s1 = Some (image s1) /\ d_type s1 = d_type s /\ length (d_cbuf s1) = Z.to_nat (cyl_size (d_type s))
  /\ d_ncyl s1 = d_ncyl s /\ d_head s1 = d_head s /\ d_dirty s1 = d_dirty s
  /\ d_state s1 = d_state s /\ d_cpos s1 = d_cpos s /\ d_count s1 = d_count s /\ d_tpos s1 = d_tpos s /\ d_step s1 = d_step s
  /\ d_label s1 = d_label s.
Proof.
  intros (B & N & H & LO & L8). destruct (ty_cyl_pos (d_type s)) as (n & CN). pose proof (cyl_small (d_type s)) as CS.
  destruct (cyls_first (d_label s) init (d_type s) n LO) as (v & w & b' & rest & EV & LV & E & LB & LW & FW).
  unfold dasd_format. rewrite B, CN. fold (cyl_size (d_type s)). rewrite E. cbn [bind].
  set (f := match d_file s with Some f => f | None => [] end). rewrite over_0.
  destruct (vol_bytes_is _ _ (proj1 LO) L8 EV) as (e & CE & LE & EVQ).
  assert (BE : Forall byte e).
  { eapply cells8_byte; [| |exact CE].
    - apply Forall_forall. intros x X. destruct LO as [_ LO]. rewrite Forall_forall in LO. apply LO.
      rewrite <- (firstn_skipn 8 (d_label s)). apply in_or_app. left. exact X.
    - unfold byte. repeat constructor; lia. }
  destruct (to_ascii_ok e BE) as (l & AL & LL).
  exists (set_tsize (set_cbuf (set_file s (Some ((header (d_type s) ++ w) ++ skipn (length (header (d_type s) ++ w)) f))) b') (ty_tsize (d_type s))),
    (if init then Some (l ++ [0]) else None).
  split; [reflexivity|]. split.
  { exists (w ++ skipn (length (header (d_type s) ++ w)) f).
    split; [unfold image; cbn [d_file set_tsize set_cbuf set_file]; rewrite <- app_assoc; reflexivity|].
    split; [rewrite app_length, CN, LW; apply Nat.le_add_r|]. rewrite firstn_app.
    assert (CL : (Z.to_nat (cyl_size (d_type s)) <= length w)%nat) by (rewrite LW; apply Nat.le_add_r).
    apply Nat.sub_0_le in CL. rewrite CL.
    rewrite firstn_O, app_nil_r, FW. subst v. destruct init.
    - right. exists e, l, rest. repeat split; auto.
    - left. split; [reflexivity|]. eauto. }
  split.
  { destruct init; [|reflexivity]. exists l. split; [reflexivity|]. split; [congruence|]. intros F.
    assert (Q : to_ascii e = Ok (firstn 8 (d_label s))).
    { eapply cells8_back; [exact F| |exact CE]. rewrite firstn_length, (proj1 LO). reflexivity. }
    congruence. }
  split.
  { intros F0. unfold f, image. cbn [d_file set_tsize set_cbuf set_file]. rewrite F0, skipn_nil, app_nil_r, app_length, header_len, LW.
    assert (ty_cyl (d_type s) = Z.of_nat (S n)) by lia. nia. }
  destruct s; cbn in *. repeat split; auto.
Qed.

(** Attaching to a drive without a pack, when the file is (re)formatted. *)
Lemma attach_formats s f init : no_pack s -> is_header f && negb init = false ->
  exists s' lab, dasd_attach s f init = Ok s' /\ on_pack (d_type s) (image s') lab s s' /\ gets init (d_label s) lab /\ made (d_type s) lab (image s')
  /\ (f = [] -> Z.of_nat (length (image s')) = 512 + ty_cyl (d_type s) * cyl_size (d_type s)).
Proof.
  intros NP HF. rewrite attach_is, HF.
  assert (NP' : no_pack (set_file s (Some f))) by (destruct s; exact NP).
  destruct (format_made _ init NP') as (s1 & lab & E & M & G & X1 & F1 & T1 & B1 & N1 & H1 & D1 & A1 & P1 & C1 & Q1 & E1 & L1).
  rewrite E. cbn [bind]. destruct NP as (B & N & H & LO & L8).
  replace (d_type (set_file s (Some f))) with (d_type s) in * by (destruct s; reflexivity).
  replace (d_label (set_file s (Some f))) with (d_label s) in * by (destruct s; reflexivity).
  pose proof M as (w & EW & LW & SW). rewrite EW in F1.
  assert (LW' : (Z.to_nat (cyl_size (d_type s)) <= length w)%nat).
  { destruct (ty_cyl_pos (d_type s)) as (n & CN). rewrite CN in LW. etransitivity; [apply Nat.le_add_r|exact LW]. }
  destruct (rest_on s1 (d_type s) w lab T1 F1 (or_intror B1)) as (s' & E' & O); auto.
  { rewrite N1. destruct s; exact N. }
  { rewrite H1, T1. destruct s; exact H. }
  exists s', lab. rewrite E'. split; [reflexivity|].
  unfold on_pack in *. destruct O as (O1 & O2 & O3 & O). rewrite <- O3 in O. rewrite O3. rewrite EW in M.
  rewrite N1, H1, D1, A1, P1, C1, Q1, E1, L1 in O.
  split; [|split; [exact G|split; [exact M|]]].
  2:{ intros ->. rewrite <- EW. apply X1. destruct s; reflexivity. }
  rewrite <- O3. destruct s; cbn in *. intuition.
Qed.

(** Attaching a pack that dasd_format made. *)
Lemma attach_made s f lab : no_pack s -> made (d_type s) lab f ->
  exists s', dasd_attach s f false = Ok s' /\ on_pack (d_type s) f lab s s'.
Proof.
  intros (B & N & H & LO & L8) (w & -> & LW & SW). rewrite attach_is, header_is. cbn [andb negb bind].
  destruct (rest_on (set_file s (Some (header (d_type s) ++ w))) (d_type s) w lab) as (s' & E' & O).
  1-5: destruct s; cbn in *; auto.
  { destruct (ty_cyl_pos (d_type s)) as (n & CN). rewrite CN in LW. etransitivity; [apply Nat.le_add_r|exact LW]. }
  { exact SW. }
  exists s'. split; [exact E'|]. destruct s; exact O.
Qed.

Lemma label_of_ok volid : Forall (fun c => 0 < c < 128) volid -> (length volid <= 8)%nat ->
  label_ok (label_of volid) /\ nth_error (label_of volid) 8 = Some 0 /\ firstn 8 (label_of volid) = volid ++ repeat 32 (8 - length volid).
Proof.
  intros F L. unfold label_of. split; [split|].
  - rewrite !app_length, repeat_length. cbn [length]. lia.
  - apply Forall_app. split; [eapply Forall_impl; [|exact F]; intros; cbn in *; lia|].
    apply Forall_app. split; [|repeat constructor; lia]. apply Forall_forall. intros x X. apply repeat_spec in X. lia.
  - rewrite app_assoc. assert (Q : length (volid ++ repeat 32 (8 - length volid)) = 8%nat) by (rewrite app_length, repeat_length; lia). split.
    + rewrite nth_error_app2 by lia. rewrite Q. reflexivity.
    + rewrite <- Q at 1. rewrite firstn_app, Nat.sub_diag, firstn_O, app_nil_r. apply firstn_all.
Qed.

Lemma setvolid_label s volid : (length volid <= 8)%nat -> d_label (dasd_setvolid s volid) = label_of volid.
Proof. intros L. unfold dasd_setvolid, label_of. rewrite firstn_all2 by exact L. destruct s; reflexivity. Qed.

(** *** A drive of another type *)

Lemma find_none t n : n = 512 + ty_cyl t * cyl_size t -> find (ty_match (ty_heads t) (ty_tsize t) (ty_dev t) n) all_types = None.
Proof.
  intros ->. destruct (find _ _) as [u|] eqn:E; [|reflexivity]. exfalso. pose proof (find_same _ _ _ _ _ E) as ->.
  apply find_some in E. destruct E as [_ E]. unfold ty_match in E. apply andb_true_iff in E. destruct E as [_ E].
  apply Z.eqb_eq in E. unfold cyl_size in E. destruct t; discriminate E.
Qed.

Lemma rest_other s t w lab : d_file s = Some (header t ++ w) -> d_cbuf s = [] ->
  Z.of_nat (length (header t ++ w)) = 512 + ty_cyl t * cyl_size t -> starts (firstn (Z.to_nat (cyl_size t)) w) lab ->
  exists s', attach_rest s = Ok s' /\ d_type s' = d_type s /\ d_tsize s' = ty_tsize t.
Proof.
  intros F B LN ST. pose proof (cyl_small t) as CS. pose proof (ty_facts t) as TF.
  unfold attach_rest. rewrite F, header_heads, header_tsize, header_dev, (find_none t _ LN).
  assert (U : u32 (ty_tsize t * ty_heads t) = cyl_size t) by (apply u32_small; unfold cyl_size in *; lia). rewrite U.
  set (len := Z.to_nat (cyl_size t)) in *.
  replace (match d_cbuf (set_tsize s (ty_tsize t)) with [] => set_cbuf (set_tsize s (ty_tsize t)) (repeat 0 len) | _ => set_tsize s (ty_tsize t) end)
    with (set_cbuf (set_tsize s (ty_tsize t)) (repeat 0 len)) by (destruct s; cbn in *; subst; reflexivity).
  set (s1 := set_cbuf _ _).
  assert (S1 : length (d_cbuf s1) = len /\ d_file s1 = Some (header t ++ w) /\ d_type s1 = d_type s /\ d_tsize s1 = ty_tsize t).
  { unfold s1. destruct s; cbn in *. rewrite repeat_length. auto. }
  clearbody s1. destruct S1 as (L1 & F1 & T1 & Z1).
  unfold file_read. rewrite F1.
  replace (skipn (Z.to_nat 512) (header t ++ w)) with w.
  2:{ rewrite skipn_app, skipn_all2 by (rewrite header_len; lia). rewrite header_len. replace (Z.to_nat 512 - 512)%nat with 0%nat by lia. reflexivity. }
  fold len. rewrite firstn_length, L1. replace (Z.of_nat (Nat.min len (length w)) <=? Z.of_nat len) with true by lia. cbn [bind].
  rewrite app_length, header_len in LN. unfold len in *.
  assert (CY : exists n, Z.to_nat (ty_cyl t) = S n) by apply ty_cyl_pos. destruct CY as (n & CY).
  rewrite (skipn_all2 (d_cbuf s1)) by nia. rewrite app_nil_r.
  set (s2 := set_tstart _ 0). rewrite (volid_starts s2 lab).
  2:{ unfold s2. destruct s1; exact ST. }
  eexists. split; [reflexivity|].
  destruct lab; unfold s2; destruct s1; cbn in *; auto.
Qed.

Lemma attach_other s t f lab : d_cbuf s = [] -> made t lab f -> Z.of_nat (length f) = 512 + ty_cyl t * cyl_size t ->
  exists s', dasd_attach s f false = Ok s' /\ d_type s' = d_type s /\ d_tsize s' = ty_tsize t.
Proof.
  intros B (w & -> & LW & SW) L. rewrite attach_is, header_is. cbn [andb negb bind].
  destruct (rest_other (set_file s (Some (header t ++ w))) t w lab) as (s' & E' & T' & Z'); auto.
  exists s'. split; [exact E'|]. split; [|exact Z']. destruct s; exact T'.
Qed.

(** *** A label that cannot be written *)

Lemma vol_bytes_ub label i c : nth_error label i = Some c -> 128 <= c -> (i <= 8)%nat -> length label = 9%nat ->
  (forall j d, (j < i)%nat -> nth_error label j = Some d -> 0 <= d < 128) -> vol_bytes label 0 volrec = UB.
Proof.
  intros N C I L F.
  assert (X : forall n l p, (p + n = 8 + i)%nat -> (n < length l)%nat -> vol_bytes label p l = UB).
  { induction n as [|n IH]; intros l p H H1; (destruct l as [|x l]; [cbn in H1; lia|]); cbn [vol_bytes].
    - replace (p) with (8 + i)%nat by lia. replace (Nat.leb 8 (8 + i) && Nat.leb (8 + i) 16)%bool with true.
      2:{ symmetry. apply andb_true_iff. rewrite !Nat.leb_le. lia. }
      replace (8 + i - 8)%nat with i by lia. rewrite N. replace (c =? 0) with false by lia. replace (c <? 128) with false by lia. reflexivity.
    - cbn [length] in H1. rewrite (IH l (S p)) by lia.
      destruct (Nat.leb 8 p && Nat.leb p 16)%bool eqn:B; [|reflexivity].
      apply andb_true_iff in B. rewrite !Nat.leb_le in B.
      destruct (nth_error label (p - 8)) as [d|] eqn:D; [|reflexivity].
      pose proof (F (p - 8)%nat d ltac:(lia) D) as FD. destruct (d =? 0); [reflexivity|].
      replace (d <? 128) with true by lia. destruct (a2e_ok d FD) as (v & ->). reflexivity. }
  apply (X (8 + i)%nat); [lia|]. cbn. lia.
Qed.

Lemma format_ub s : d_cbuf s = [] -> vol_bytes (d_label s) 0 volrec = UB -> dasd_format s true = UB.
Proof.
  intros B V. unfold dasd_format. rewrite B. fold (cyl_size (d_type s)).
  destruct (ty_cyl_pos (d_type s)) as (n & ->). pose proof (ty_facts (d_type s)) as TF. pose proof (cyl_small (d_type s)) as CS.
  cbn [format_cyls]. assert (HS : exists m, Z.to_nat (ty_heads (d_type s)) = S m) by (exists (Nat.pred (Z.to_nat (ty_heads (d_type s)))); lia).
  destruct HS as (m & ->). cbn [format_heads]. rewrite Z.mul_0_r. unfold format_track.
  assert (LR : 309 <= Z.of_nat (length (repeat 0 (Z.to_nat (cyl_size (d_type s)))))) by (rewrite repeat_length; unfold cyl_size in *; nia).
  destruct (blit_ok (repeat 0 (Z.to_nat (cyl_size (d_type s)))) 0 ([0] ++ cchh 0 0 ++ cchh 0 0 ++ [0; 0; 0; 8]) ltac:(lia) ltac:(change (length ([0] ++ cchh 0 0 ++ cchh 0 0 ++ [0; 0; 0; 8])) with 13%nat; lia)) as (b1 & E1 & L1 & _).
  rewrite E1. cbn [bind Z.eqb andb].
  destruct (blit_ok b1 (0 + 21) (cchh 0 0 ++ [1; 4; 0; 24] ++ ipl1rec ++ cchh 0 0 ++ [2; 4; 0; 144] ++ ipl2key) ltac:(lia)
    ltac:(change (length (cchh 0 0 ++ [1; 4; 0; 24] ++ ipl1rec ++ cchh 0 0 ++ [2; 4; 0; 144] ++ ipl2key)) with 48%nat; lia)) as (b2 & E2 & L2 & _).
  rewrite E2. cbn [bind]. rewrite V. reflexivity.
Qed.

Lemma attach_ub s f : d_cbuf s = [] -> vol_bytes (d_label s) 0 volrec = UB -> dasd_attach s f true = UB.
Proof.
  intros B V. rewrite attach_is. rewrite andb_false_r. rewrite format_ub; [reflexivity| |]; destruct s; assumption.
Qed.

(** *** Any image of the right geometry *)

Lemma next_skip s p q : next_rec (d_cbuf s) p = Some q -> Forall byte (d_cbuf s) -> skip_rec s (Z.of_nat p) = Ok (Z.of_nat q).
Proof.
  unfold next_rec, skip_rec, getb, tab. intros H F.
  replace (Z.of_nat p + 5 <? 0) with false by lia. replace (Z.of_nat p + 6 <? 0) with false by lia. replace (Z.of_nat p + 7 <? 0) with false by lia.
  replace (Z.to_nat (Z.of_nat p + 5)) with (p + 5)%nat by lia. replace (Z.to_nat (Z.of_nat p + 6)) with (p + 6)%nat by lia.
  replace (Z.to_nat (Z.of_nat p + 7)) with (p + 7)%nat by lia.
  rewrite Forall_forall in F. unfold byte in F.
  destruct (nth_error (d_cbuf s) (p + 5)) as [k|] eqn:K; [|discriminate]. destruct (nth_error (d_cbuf s) (p + 6)) as [h|] eqn:Hh; [|discriminate].
  destruct (nth_error (d_cbuf s) (p + 7)) as [l|] eqn:L; [|discriminate]. injection H as <-. cbn [bind].
  pose proof (F _ (nth_error_In _ _ K)). pose proof (F _ (nth_error_In _ _ Hh)). pose proof (F _ (nth_error_In _ _ L)). f_equal. lia.
Qed.

Lemma same_bytes_ok l : forall s p, 0 <= p -> p + Z.of_nat (length l) <= blen s -> exists b, same_bytes s p l = Ok b.
Proof.
  induction l as [|v l IH]; intros s p H1 H2; cbn [same_bytes length] in *; [eauto|].
  unfold getb. destruct (tab_ok (d_cbuf s) p) as (b & ->); [unfold blen in *; lia|]. cbn [bind].
  destruct (b =? v); [apply IH; lia|eauto].
Qed.
Lemma get_bytes_ok n : forall s p, 0 <= p -> p + Z.of_nat n <= blen s -> Forall byte (d_cbuf s) -> exists l, get_bytes n s p = Ok l /\ Forall byte l /\ length l = n.
Proof.
  induction n as [|n IH]; intros s p H1 H2 F; cbn [get_bytes]; [exists []; auto|].
  unfold getb. destruct (tab_ok (d_cbuf s) p) as (b & E); [unfold blen in *; lia|]. rewrite E. cbn [bind].
  destruct (IH s (p + 1) ltac:(lia) ltac:(lia) F) as (l & -> & B & L). cbn [bind]. exists (b :: l). split; [reflexivity|]. split; [|cbn; congruence].
  constructor; [|exact B]. rewrite Forall_forall in F. apply F. unfold tab in E. destruct (p <? 0); [discriminate|].
  destruct (nth_error (d_cbuf s) (Z.to_nat p)) eqn:N; [|discriminate]. injection E as <-. exact (nth_error_In _ _ N).
Qed.

Lemma volid_ok s : four_records (d_cbuf s) -> Forall byte (d_cbuf s) -> exists lab, read_volid s = Ok (match lab with Some l => set_label s l | None => s end).
Proof.
  intros (p & q & r & E1 & E2 & E3 & L) F. unfold read_volid. pose proof (next_skip s _ _ E1 F) as Q. change (Z.of_nat 5) with 5 in Q. rewrite Q. cbn [bind].
  rewrite (next_skip s _ _ E2 F). cbn [bind]. rewrite (next_skip s _ _ E3 F). cbn [bind].
  assert (G : forall i, 0 <= i < 24 -> exists v, getb s (Z.of_nat r + i) = Ok v) by (intros i H; apply tab_ok; lia).
  destruct (G 5 ltac:(lia)) as (k & ->). cbn [bind].
  assert (H1 : exists h, (if k =? 4 then getb s (Z.of_nat r + 6) else Ok 1) = Ok h) by (destruct (k =? 4); [apply G; lia|eauto]).
  destruct H1 as (h & ->). cbn [bind].
  assert (H2 : exists l, (if h =? 0 then getb s (Z.of_nat r + 7) else Ok 0) = Ok l) by (destruct (h =? 0); [apply G; lia|eauto]).
  destruct H2 as (l & ->). cbn [bind]. destruct (l =? 80); [|exists None; reflexivity].
  destruct (same_bytes_ok (firstn 8 volrec) s (Z.of_nat r + 8)) as (e & ->); [lia|unfold blen; change (length (firstn 8 volrec)) with 8%nat; lia|]. cbn [bind].
  destruct e; [|exists None; reflexivity].
  destruct (get_bytes_ok 8 s (Z.of_nat r + 16)) as (v & -> & BV & _); [lia|unfold blen; lia|exact F|]. cbn [bind].
  destruct (to_ascii_ok v BV) as (a & -> & _). cbn [bind]. exists (Some (a ++ [0])). reflexivity.
Qed.

Lemma attach_any s f t w : no_pack s -> d_type s = t -> f = header t ++ w -> (Z.to_nat (cyl_size t) <= length w)%nat ->
  Forall byte w -> four_records (firstn (Z.to_nat (cyl_size t)) w) ->
  exists s', dasd_attach s f false = Ok s' /\ mounted s' /\ d_type s' = t /\ image s' = f /\ d_cbuf s' = cyl_of t 0 f.
Proof.
  intros (B & N & H & LO & L8) T -> LW BW FR. rewrite attach_is, header_is. cbn [andb negb bind].
  pose proof (cyl_small t) as CS. pose proof (ty_facts t) as TF. unfold attach_rest. cbn [d_file set_file].
  rewrite header_heads, header_tsize, header_dev.
  assert (U : u32 (ty_tsize t * ty_heads t) = cyl_size t) by (apply u32_small; unfold cyl_size in *; lia). rewrite U.
  set (s0 := set_file s (Some (header t ++ w))).
  set (n := Z.of_nat (length (header t ++ w))).
  assert (X : match find (ty_match (ty_heads t) (ty_tsize t) (ty_dev t) n) all_types with Some t0 => set_type s0 t0 | None => s0 end = s0).
  { destruct (find _ _) as [u|] eqn:E; [|reflexivity]. apply find_same in E. subst u t. unfold s0. destruct s; reflexivity. }
  rewrite X. clear X.
  set (len := Z.to_nat (cyl_size t)) in *.
  replace (match d_cbuf (set_tsize s0 (ty_tsize t)) with [] => set_cbuf (set_tsize s0 (ty_tsize t)) (repeat 0 len) | _ => set_tsize s0 (ty_tsize t) end)
    with (set_cbuf (set_tsize s0 (ty_tsize t)) (repeat 0 len)) by (unfold s0; destruct s; cbn in *; subst; reflexivity).
  set (s1 := set_cbuf _ _).
  assert (S1 : length (d_cbuf s1) = len /\ d_file s1 = Some (header t ++ w) /\ d_type s1 = t /\ d_tsize s1 = ty_tsize t /\ d_ncyl s1 = d_ncyl s /\ d_head s1 = d_head s).
  { unfold s1, s0. destruct s; cbn in *. rewrite repeat_length. repeat split; auto. }
  clearbody s1. destruct S1 as (L1 & F1 & T1 & Z1 & N1 & H1).
  unfold file_read. rewrite F1.
  replace (skipn (Z.to_nat 512) (header t ++ w)) with w.
  2:{ rewrite skipn_app, skipn_all2 by (rewrite header_len; lia). rewrite header_len. replace (Z.to_nat 512 - 512)%nat with 0%nat by lia. reflexivity. }
  fold len. rewrite firstn_length, L1. replace (Z.of_nat (Nat.min len (length w)) <=? Z.of_nat len) with true by lia. cbn [bind].
  rewrite (skipn_all2 (d_cbuf s1)) by lia. rewrite app_nil_r.
  set (s2 := set_tstart _ 0).
  assert (S2 : d_cbuf s2 = firstn len w) by reflexivity.
  destruct (volid_ok s2) as (lab & ->); [rewrite S2; exact FR|rewrite S2; apply Forall_forall; intros x I; rewrite Forall_forall in BW; apply BW;
    rewrite <- (firstn_skipn len w); apply in_or_app; left; exact I|].
  eexists. split; [reflexivity|].
  assert (C0 : cyl_of t 0 (header t ++ w) = firstn len w).
  { unfold cyl_of. rewrite Z.mul_0_l, Z.add_0_r. reflexivity. }
  rewrite C0.
  assert (Y : forall s3, d_cbuf s3 = firstn len w -> d_tsize s3 = ty_tsize t -> d_type s3 = t -> d_cyl s3 = 0 -> d_ncyl s3 = d_ncyl s -> d_fpos s3 = 512 -> d_head s3 = d_head s ->
     d_file s3 = Some (header t ++ w) -> mounted s3 /\ d_type s3 = t /\ image s3 = header t ++ w /\ d_cbuf s3 = firstn len w).
  { intros s3 A1 A2 A3 A4 A5 A6 A7 A8. unfold mounted, image. rewrite A1, A2, A3, A4, A5, A6, A7, A8. rewrite T in H. rewrite firstn_length.
    repeat split; try lia; eauto. }
  destruct lab; apply Y; unfold s2; destruct s1; cbn in *; auto.
Qed.
