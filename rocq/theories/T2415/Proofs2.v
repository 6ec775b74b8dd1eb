(** The tape control: nothing undefined happens with six drives. *)
From Verif Require Export T2415.Proofs.

Lemma bind_ok A B (a : A) (k : A -> res B) : bind (Ok a) k = k a.
Proof. reflexivity. Qed.
Tactic Notation "un" reference(f) := cbv beta delta [f].
Ltac two L := let X := fresh "X" in pose proof L as X;
  match type of X with sf2 _ _ ?r => destruct r as [[? ?]| |]; cbn [sf2] in X; [rewrite bind_ok; cbv beta iota|contradiction|exact I] end.
Ltac three L := let X := fresh "X" in pose proof L as X;
  match type of X with sf3 _ _ ?r => destruct r as [[[? ?] ?]| |]; cbn [sf3] in X; [rewrite bind_ok; cbv beta iota|contradiction|exact I] end.
Ltac the := match goal with
  | H : inv ?p ?s, U : unit_in ?u |- okr ?p (bind (the_tape ?s ?u) _) => let t := fresh "t" in let E := fresh "E" in let G := fresh "G" in
      destruct (the_ok p s u H U) as (t & E & G); rewrite E; rewrite bind_ok; cbv beta iota; clear E
  | H : inv ?p ?s, U : unit_in ?u |- okr ?p (bind (unit_tape ?s ?u) _) => let t := fresh "t" in let E := fresh "E" in let G := fresh "G" in
      destruct (unit_ok p s u H U) as (t & E & G); rewrite E; rewrite bind_ok; cbv beta iota; clear E
  | H : inv ?p ?s |- okr ?p (bind (nine ?s) _) => let n := fresh "n" in let E := fresh "E" in
      destruct (nine_ok p s H) as (n & E); rewrite E; rewrite bind_ok; cbv beta iota; clear E
  | |- okr _ (bind (six_parity ?d) _) => let b := fresh "b" in let E := fresh "E" in let B := fresh "B" in
      destruct (six_ok d) as (b & E & B); rewrite E; rewrite bind_ok; cbv beta iota; clear E
  end.
(** Name a state and forget how it was made. *)
Ltac nx X := let I := fresh "I" in let s' := fresh "s" in
  match goal with |- okr ?p _ => assert (I : inv p X) by rg; revert I; generalize X; intros s' I end.
Ltac nt := match goal with
  | |- okr _ (bind (the_tape ?X _) _) => nx X
  | |- okr _ (bind (unit_tape ?X _) _) => nx X
  | |- okr _ (bind (nine ?X) _) => nx X end.
Ltac nm := match goal with |- okr ?p (let s := ?X in @?B s) =>
  let T := type of X in unify T dev;
  let I := fresh "I" in let s' := fresh "s" in
  refine (okr_let p X B _ _); [rg|intros s' I; cbv beta] end.
Ltac ops := match goal with
  | G : good ?p ?u ?t |- okr ?p (bind (tape_read_forw ?t) _) => two (g_read_forw p u t G)
  | G : good ?p ?u ?t |- okr ?p (bind (tape_read_back ?t) _) => two (g_read_back p u t G)
  | G : good ?p ?u ?t |- okr ?p (bind (tape_read_frame ?t ?d) _) => three (g_read_frame p u t d G)
  | G : good ?p ?u ?t |- okr ?p (bind (tape_finish_rec ?n ?j ?t) _) => two (g_finish p u n j t G)
  | G : good ?p ?u ?t |- okr ?p (bind (tape_write_start ?t) _) => two (g_write_start p u t G)
  | G : good ?p ?u ?t |- okr ?p (bind (tape_write_mark ?t) _) => two (g_write_mark p u t G)
  | G : good ?p ?u ?t |- okr ?p (bind (tape_write_frame ?t ?d) _) => two (g_write_frame p u t d G)
  end.
Ltac fin := match goal with |- okr _ (Ok _) => cbn [okr]; rg end.
Ltac sf := repeat first [the | (nt; the) | ops | nm | fin
  | match goal with
    | |- okr _ (if ?b then _ else _) => destruct b
    | |- okr _ (bind (if ?b then _ else _) _) => destruct b
    | |- okr _ (bind (Ok _) _) => rewrite bind_ok; cbv beta iota
    | |- okr _ (match ?r with SErr => _ | _ => _ end) => destruct r
    end ].

Lemma ok_rew_end p s u : inv p s -> unit_in u -> okr p (rew_end s u).
Proof.
  intros H U. un rew_end. nm. sf.
  - apply iv_tape; [exact U|apply g_detach; assumption|assumption].
  - apply iv_status; [|assumption]. apply land_le, lor_byte; [apply I|sm].
Qed.
Lemma ok_rew_cb p s u : inv p s -> unit_in u -> okr p (rew_cb s u).
Proof.
  intros H U. un rew_cb. the.
  match goal with |- context [tape_rewind_frames t ?n] => pose proof (g_frames p u t n G) as G2; destruct (tape_rewind_frames t n) as [t2 r] end.
  cbn [fst] in G2. nm. destruct r; try fin. apply ok_rew_end; assumption.
Qed.
Lemma ok_done p s u : inv p s -> unit_in u -> okr p (done_cb s u).
Proof. intros H U. un done_cb. sf. Qed.
Lemma shift_byte x k : 0 <= x < 256 -> 0 <= k -> 0 <= Z.shiftr x k < 256.
Proof.
  intros X K. rewrite Z.shiftr_div_pow2 by exact K. pose proof (Z.pow_pos_nonneg 2 k ltac:(lia) K).
  split; [apply Z.div_pos; lia|]. apply Z.div_lt_upper_bound; [lia|]. nia.
Qed.
Lemma conv_out_ok cc b d : 0 <= d < 256 -> 0 <= snd (conv_out cc b d) < 256.
Proof.
  intros D. unfold conv_out. repeat match goal with |- context [if ?b then _ else _] => destruct b end; cbn [snd].
  - apply shift_byte; [exact D|lia].
  - apply lor_byte; [apply mod_byte|]. apply land_le, shift_byte; [exact D|lia].
  - apply lor_byte; [apply mod_byte|]. apply land_le, shift_byte; [exact D|lia].
  - apply mod_byte.
Qed.
Lemma trans_ok d : 0 <= d < 256 -> 0 <= trans_out d < 256.
Proof. intros D. pose proof (sweep 256 (fun d => (0 <=? trans_out d) && (trans_out d <? 256)) ltac:(vm_compute; reflexivity) d D). cbn in *. lia. Qed.
Lemma ok_write p fuel junk s u : inv p s -> unit_in u -> okr p (write_part fuel junk s u).
Proof.
  intros H U. un write_part. destruct (d_data_end s).
  - the. apply okr_bind.
    + destruct (negb n && bit (d_mode7 s) M_CONV); [|fin]. destruct (conv_last (d_cc s) (d_cbuf s) (d_data s)) as [b r]. cbv beta iota. the.
      assert (R : forall x, inv p x -> okr p (let* t := the_tape x u in let* (t', _) := tape_write_frame t b0 in Ok (set_tape u t' x))) by (intros x R; sf).
      nm. sf.
    + intros x R. sf.
  - destruct (negb (d_data_rdy s)); [|fin]. nm. the. apply okr_bind; [|intros; fin]. destruct (negb n); [|sf].
    assert (TR : forall x, inv p x -> 0 <= trans_out (d_data x) < 256) by (intros x R; apply trans_ok, R).
    refine (okr_let p (if bit (d_mode7 s0) M_TRANS then set_data_rdy true (set_data (trans_out (d_data s0)) s0) else s0)
      (fun s => let s := if bit (d_mode7 s) M_CONV then
                   let '(c, cb, b) := conv_out (d_cc s) (d_cbuf s) (d_data s) in
                   set_data_rdy true (set_cc c (set_data b (set_cbuf cb s)))
                 else s in
        let* b := six_parity (d_data s) in Ok (set_data b s)) _ _); [rg; apply iv_data; [apply TR|]; assumption|]. intros s1 I1.
    pose proof (conv_out_ok (d_cc s1) (d_cbuf s1) (d_data s1) ltac:(apply I1)) as B.
    destruct (conv_out (d_cc s1) (d_cbuf s1) (d_data s1)) as [[c cb] b]. cbn [snd] in B. nm. sf.
Qed.
Lemma ebcdic_ok i v : tab bcd_to_ebcdic i = Ok v -> 0 <= v < 256.
Proof.
  unfold tab. destruct (i <? 0); [discriminate|]. destruct (nth_error bcd_to_ebcdic (Z.to_nat i)) as [x|] eqn:E; [|discriminate]. intros H. injection H as ->.
  assert (F : forallb (fun x => (0 <=? x) && (x <? 256)) bcd_to_ebcdic = true) by (vm_compute; reflexivity).
  rewrite forallb_forall in F. specialize (F v (nth_error_In _ _ E)). lia.
Qed.
Lemma low6 d : 0 <= Z.land d 63 < 64.
Proof. change 63 with (Z.ones 6). rewrite Z.land_ones by lia. pose proof (Z.mod_pos_bound d (2 ^ 6) ltac:(lia)). cbn in *. lia. Qed.
Lemma ok_read7 p s : inv p s -> okr p (read7 s).
Proof.
  intros H. un read7. destruct (tab_ok parity_table (Z.land (d_data s) 63)) as (x & ->); [pose proof (low6 (d_data s)); cbn; lia|]. rewrite bind_ok; cbv beta iota.
  nm. assert (L : 0 <= Z.land (d_data s0) 63 < 256) by (pose proof (low6 (d_data s0)); lia).
  set (s1 := set_data _ s0). assert (I1 : inv p s1) by (subst s1; apply iv_data; assumption).
  assert (L1 : 0 <= d_data s1 < 64) by (subst s1; cbn [d_data set_data]; apply low6). clearbody s1. cbv zeta.
  apply okr_bind.
  - destruct (bit _ _); [|fin]. destruct (tab_ok bcd_to_ebcdic (d_data s1)) as (e & E); [cbn; lia|]. rewrite E. cbn [bind okr]. apply iv_data; [apply (ebcdic_ok _ _ E)|exact I1].
  - intros s2 I2. destruct (bit _ _); [|fin]. unfold conv_in.
    assert (B : forall z, 0 <= Z.land z 255 < 256) by (intros; apply land_byte).
    destruct (d_cc s2 =? 0); [|destruct (d_cc s2 =? 1); [|destruct (d_cc s2 =? 2)]]; cbv zeta; cbn [okr]; rg;
      (apply iv_data; [first [apply B|apply I2]|rg]).
Qed.
Lemma land_m x m : 0 <= m < 256 -> 0 <= Z.land x m < 256.
Proof. rewrite Z.land_comm. apply land_le. Qed.
Lemma ok_read p fuel junk s u : inv p s -> unit_in u -> okr p (read_part fuel junk s u).
Proof.
  intros H U. un read_part. destruct (d_data_end s).
  - sf.
  - destruct (d_data_rdy s); [fin|]. the. ops. nm.
    assert (L : forall x, inv p x -> inv p (conv_in_last x)).
    { intros x R. unfold conv_in_last. destruct (d_cc x =? 0); [rg|]. destruct (d_cc x =? 1); [|destruct (d_cc x =? 2); [|exact R]]; cbv zeta; rg; (apply iv_data; [apply land_m; lia|rg]). }
    destruct s0; try fin.
    1: nm; the; destruct n; [fin|apply ok_read7; assumption].
    all: nm; the; match goal with |- context [if ?b && ?c then conv_in_last _ else _] => destruct (b && c) end; cbv zeta; cbn [okr]; rg; apply L; assumption.
Qed.
Lemma ok_space p fuel junk s u : inv p s -> unit_in u -> okr p (space_part fuel junk s u).
Proof. intros H U. un space_part. sf. Qed.
Lemma ok_motion p fuel junk s u : inv p s -> unit_in u -> okr p (motion_part fuel junk s u).
Proof.
  intros H U. un motion_part. intros. set (c := Z.land _ _). clearbody c. cbv zeta.
  destruct (c =? 15); [the; cbn [okr]; rg; (apply iv_tape; [exact U|apply g_rewind; assumption|exact H])|].
  destruct (c =? 7); [the; cbn [okr]; rg; (apply iv_tape; [exact U|apply g_rewind; assumption|exact H])|].
  destruct (c =? 23); [fin|]. destruct (c =? 31); [sf|]. destruct (_ || _); [|fin]. apply ok_space; assumption.
Qed.
Lemma ok_tape_cb p fuel junk s u : inv p s -> unit_in u -> okr p (tape_cb fuel junk s u).
Proof.
  intros H U. unfold tape_cb. destruct (_ || _); [apply ok_write; assumption|]. destruct (_ || _); [apply ok_read; assumption|].
  destruct (_ || _); [apply ok_motion; assumption|fin].
Qed.
Lemma remove_in k l (P : cb * Z -> Prop) : Forall P l -> Forall P (remove_ev k l).
Proof. induction 1; cbn [remove_ev]; [apply Forall_nil|]. destruct (ev_eqb k x); [assumption|]. apply Forall_cons; assumption. Qed.
Lemma ok_fire p fuel junk s k u : inv p s -> okr p (fire fuel junk s k u).
Proof.
  intros H. unfold fire. destruct (existsb _ _) eqn:E; [|exact H].
  assert (U : unit_in u).
  { apply existsb_exists in E. destruct E as ([k' u'] & IN & E). unfold ev_eqb in E. cbn [fst snd] in E. apply andb_prop in E. destruct E as [_ E]. apply Z.eqb_eq in E. subst u'.
    destruct H as (_ & _ & F & _). rewrite Forall_forall in F. apply (F _ IN). }
  assert (I : inv p (set_pend (remove_ev (k, u) (d_pend s)) s)) by (apply iv_pend; [apply remove_in, H|exact H]).
  revert I. generalize (set_pend (remove_ev (k, u) (d_pend s)) s). intros s1 I. cbv zeta. destruct k; [apply ok_tape_cb|apply ok_done|apply ok_rew_cb]; assumption.
Qed.
Lemma ok_key p s u k : inv p s -> unit_in u -> (match k with KLoad _ _ _ _ _ => p u = None | _ => True end) -> okr p (do_key s u k).
Proof.
  intros H U N. un do_key. the.
  assert (SR : forall x, good p u x -> inv p (start_rewind s u x)).
  { intros x G1. unfold start_rewind. rg. apply iv_tape; [exact U|apply g_rewind; exact G1|exact H]. }
  destruct k.
  - destruct (t_online t); [fin|]. cbv zeta. cbn [okr]. apply SR.
    assert (G1 : good p u (if t_att t && other then fst (tape_detach t) else t)) by (destruct (_ && _); [apply g_detach|]; assumption).
    revert G1. generalize (if t_att t && other then fst (tape_detach t) else t). intros t1 G1. destruct (negb (t_att t1)); [apply g_attach|]; assumption.
  - destruct (_ && _); cbn [okr]; rg.
  - destruct (negb _); [|fin]. cbv zeta. cbn [okr]. rg. apply SR. assumption.
  - cbn [okr]. apply iv_tape; [exact U|apply g_online; assumption|exact H].
  - cbn [okr]. apply iv_tape; [exact U|apply g_frame; assumption|exact H].
Qed.
Lemma ok_begin p s c : inv p s -> okr p (cmd_begin s c).
Proof.
  intros H. pose proof H as (_ & U & _). un cmd_begin. the. nm. nm. fin.
Qed.
Lemma ok_end p s : inv p s -> okr p (cmd_end s).
Proof.
  intros H. un cmd_end. apply okr_bind.
  - destruct (_ && _); [|fin]. nm. pose proof I as (_ & U & _). the. nm. fin.
  - intros x R. nm. fin.
Qed.
Ltac cur := match goal with R : inv _ ?x |- okr _ (bind (the_tape ?x (d_cur ?x)) _) => let U := fresh "U" in pose proof R as (_ & U & _) end.
Lemma ok_cwrite p s : inv p s -> okr p (cmd_write s).
Proof. intros H. un cmd_write. destruct (bit _ _); [fin|]. nm. cur. sf. Qed.
Lemma ok_cread p s : inv p s -> okr p (cmd_read s).
Proof. intros H. un cmd_read. destruct (bit _ _); [fin|]. nm. cur. sf. Qed.
Lemma ok_creadback p s : inv p s -> okr p (cmd_readback s).
Proof. intros H. un cmd_readback. destruct (bit _ _); [fin|]. nm. cur. sf. Qed.
Lemma iv_mode p s : inv p s -> inv p (cmd_mode s).
Proof. intros H. unfold cmd_mode. cbv zeta. rg. Qed.
Lemma ok_cmotion p s : inv p s -> okr p (cmd_motion s).
Proof.
  intros H. un cmd_motion. destruct (bit _ _); [fin|]. nm. cur. the. destruct (negb (t_att t)); [fin|]. cbv zeta.
  destruct (_ || _); [fin|]. destruct (_ || _); [fin|]. destruct (_ || _); [sf|]. destruct (_ || _); [|fin]. sf.
Qed.
Lemma ok_device_cmd p s c : inv p s -> okr p (device_cmd s c).
Proof.
  intros H. un device_cmd. cbv zeta. destruct (_ && _); [fin|]. apply okr_bind; [apply ok_begin; exact H|]. intros x R.
  destruct (_ =? 0); [fin|]. apply okr_bind; [|intros; apply ok_end; assumption].
  destruct (_ || _); [apply ok_cwrite; exact R|]. destruct (_ || _); [apply ok_cread; exact R|]. destruct (_ =? 12); [apply ok_creadback; exact R|].
  destruct (_ =? 4); [fin|]. destruct (_ || _); [apply iv_mode; exact R|]. destruct (_ || _); [apply ok_cmotion; exact R|fin].
Qed.

Lemma addr_ok a s : unit_in (d_cur s) -> 0 <= unit_addr a s < 256.
Proof. intros U. unfold unit_addr. apply lor_byte; [apply land_m; lia|unfold unit_in in U; lia]. Qed.
Definition okc (p : Z -> option (list Z)) (r : res (dev * tags * Z)) : Prop := match r with Ok (s, _, _) => inv p s | UB => False | NoFuel => True end.
Lemma okc_par p x k : 0 <= x < 256 -> (forall b, okc p (k b)) -> okc p (bind (with_parity x) k).
Proof. intros X K. destruct (with_parity_ok x X) as (y & -> & _). cbn [bind]. apply K. Qed.
Lemma okc_bad p x k : (forall b, okc p (k b)) -> okc p (bind (bad_parity x) k).
Proof. intros K. destruct (bad_parity_ok x) as (b & ->). cbn [bind]. apply K. Qed.
Lemma okc_bind p r k : okr p r -> (forall s, inv p s -> okc p (k s)) -> okc p (bind r k).
Proof. destruct r; cbn; auto; try contradiction. Qed.
Lemma okc_let p X (B : dev -> res (dev * tags * Z)) : inv p X -> (forall s, inv p s -> okc p (B s)) -> okc p (B X).
Proof. auto. Qed.
Ltac nmc := match goal with |- okc ?p (let s := ?X in @?B s) =>
  let T := type of X in unify T dev;
  let I := fresh "I" in let s' := fresh "s" in
  refine (okc_let p X B _ _); [rg|intros s' I; cbv beta] end.
Ltac lt := match goal with |- okc ?p (let s := ?X in @?B s) =>
  let T := type of X in unify T tags; let t' := fresh "t" in let A := fresh "A" in
  change (okc p (B X));
  (match goal with t0 : tags |- _ =>
     assert (A : adro X = adro t0) by (repeat match goal with |- adro (if ?b then _ else _) = _ => destruct b end; cbn [adro set_selo set_reqi set_opri set_stai set_srvi set_adri]; congruence) end);
  revert A; generalize X; intros t' A; cbv beta end.
Ltac par := match goal with
  | R : inv _ ?s |- okc _ (bind (with_parity (d_status ?s)) _) => apply okc_par; [apply R|intros ?]
  | R : inv _ ?s |- okc _ (bind (with_parity (d_data ?s)) _) => apply okc_par; [apply R|intros ?]
  | R : inv _ ?s |- okc _ (bind (with_parity (unit_addr _ ?s)) _) => apply okc_par; [apply addr_ok, R|intros ?]
  | |- okc _ (bind (with_parity (Z.land _ 255)) _) => apply okc_par; [apply land_byte|intros ?]
  | |- okc _ (bind (with_parity _) _) => apply okc_par; [sm|intros ?]
  | |- okc _ (bind (bad_parity _) _) => apply okc_bad; intros ? end.
Ltac sc := repeat first [lt | nmc | par
  | match goal with
    | |- okc _ (Ok _) => cbn [okc]; rg
    | |- okc _ (if ?b then _ else _) => destruct b eqn:?
    end].
Lemma ok_chan p a s t bo bi : inv p s -> six_units a (Chan t bo bi) -> okc p (dev_step a s t bo bi).
Proof.
  intros H SU. un dev_step. destruct (_ && _); [lt; cbn [okc]; rg|].
  assert (SC : forall x, inv p x -> inv p (set_scan (if 6 <=? d_scan x + 1 then 0 else d_scan x + 1) x)).
  { intros x R. apply iv_scan; [|exact R]. destruct R as (_ & _ & _ & _ & _ & V). unfold unit_in in *. destruct (6 <=? _) eqn:E; lia. }
  destruct (d_st s); sc.
  all: try (apply SC; assumption).
  - apply iv_cur; [|assumption]. split; [apply Z.land_nonneg; right; lia|]. apply SU; [congruence|apply Z.eqb_eq; assumption].
  - destruct (negb (has (d_rdyf s0) (d_scan s0))).
    + assert (I2 : inv p (or_status SNS_DEVEND (set_cur (d_scan s0) s0))) by (rg; apply iv_cur; [apply I|exact I]). cbv zeta.
      destruct (with_parity_ok (unit_addr a (or_status SNS_DEVEND (set_cur (d_scan s0) s0)))) as (y & -> & _); [apply addr_ok, I2|]. cbn [bind okc]. rg.
    + cbn [bind okc]. rg.
  - apply okc_bind; [destruct (_ && _); [apply ok_device_cmd; assumption|assumption]|]. intros x R. cbn [okc]. rg.
  - apply iv_data; [apply mod_byte|]. rg.
  - apply okc_bind; [|intros x R; nmc; cbn [okc]; rg]. destruct (bit (d_cmd s0) 1); [|assumption]. destruct (bad_parity_ok bo) as (bad & ->). cbn [bind]. destruct bad; cbn [okr]; rg.
Qed.
Lemma ok_run p a : forall l s, inv p s -> Forall (six_units a) l -> (forall u, p u <> None -> Forall (not_loaded u) l) -> okr p (run a s l).
Proof.
  induction l as [|x l IH]; intros s H F N; [exact H|]. cbn [run]. apply okr_bind.
  - destruct x as [t bo bi|fuel junk k u|u k]; cbn [astep].
    + pose proof (ok_chan p a s t bo bi H (Forall_inv F)) as X. destruct (dev_step a s t bo bi) as [[[s' t'] bi']| |]; cbn [okc bind fst okr] in *; exact X.
    + apply ok_fire. exact H.
    + apply ok_key; [exact H|exact (Forall_inv F)|]. destruct k; try exact I. destruct (p u) as [f0|] eqn:P; [|reflexivity].
      exfalso. assert (Q : p u <> None) by congruence. apply (Forall_inv (N u Q)). reflexivity.
  - intros s' R. apply IH; [exact R|exact (Forall_inv_tail F)|]. intros u P. exact (Forall_inv_tail (N u P)).
Qed.
Lemma inv_init p l : six_drives l -> (forall u f, p u = Some f -> exists t, nth_error l (Z.to_nat u) = Some (Some t) /\ w_ro (t_win t) = true /\ w_file (t_win t) = f) ->
  inv p (init_dev l).
Proof.
  intros [L D] P. split; [|split; [split; cbn; lia|]; split; [apply Forall_nil|]; split; [cbn; lia|]; split; [cbn; lia|split; cbn; lia]].
  split; [exact L|]. intros u o U N. destruct (D o) as (t & -> & W); [apply (nth_error_In _ _ N)|]. exists t. split; [reflexivity|]. apply good_of. split; [exact W|].
  unfold prot_ok. destruct (p u) as [f|] eqn:E; [|exact I]. destruct (P u f E) as (t' & N' & R & F). cbn [d_tapes init_dev] in N. rewrite N in N'. injection N' as <-. split; assumption.
Qed.
