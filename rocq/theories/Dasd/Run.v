(** Whole histories stay inside the buffer: proofs. *)
From Verif Require Export Dasd.Attach.

Lemma seek_sane s : sane s -> pack s -> okp (fun s' => sane s' /\ pack s') (seek_callback s).
Proof.
  intros [G P] PK. destruct (seek_effect s PK) as (s' & E & PK' & T & _). exists s'. split; [exact E|]. split; [|exact PK'].
  destruct PK as (A & B & _ & _ & _ & f & F). rewrite (seek_is' s f A B F) in E. injection E as <-.
  destruct PK' as (A' & B' & _).
  destruct G as (_ & _ & _ & _ & H). pose proof (ty_facts (d_type s)) as TF. pose proof (cyl_small (d_type s)) as CS.
  assert (X : d_head (after_seek s) = d_head s /\ d_tstart (after_seek s) = u32 (d_tsize s * d_head s)
    /\ d_state (after_seek s) = d_state s /\ d_tpos (after_seek s) = d_tpos s /\ d_rpos (after_seek s) = d_rpos s
    /\ d_cpos (after_seek s) = d_cpos s /\ d_count (after_seek s) = d_count s).
  { unfold after_seek. destruct (d_cyl s =? d_ncyl s); repeat split. }
  destruct X as (X1 & X2 & X3 & X4 & X5 & X6 & X7).
  split.
  - unfold geo, blen. rewrite A', B', X1, X2, T, A. rewrite u32_small by (unfold cyl_size in CS; nia).
    repeat split; try lia; unfold cyl_size; nia.
  - unfold placed. rewrite T, X3, X4, X5, X6, X7. exact P.
Qed.

Lemma op_sane s o : sane s -> pack s -> op_bytes o -> op_safe s o -> okp (fun s' => sane s' /\ pack s') (do_op s o).
Proof.
  intros S P B O.
  assert (X : o = OSeek \/ okp sane (do_op s o)).
  { destruct o as [d a i|d a i| |ft fc| |]; cbn [do_op] in *; [right..|left; reflexivity].
    - destruct (read_sane s d a i S) as (r & E & H & _). rewrite E. apply okp_ok, H.
    - destruct (write_sane s d a i S) as (r & E & H & _). rewrite E. apply okp_ok, H.
    - apply okp_ok, step_sane, S.
    - destruct (tags_sane s ft fc S O) as (r & E & H & _). rewrite E. apply okp_ok, H.
    - destruct O as [O1 O2]. destruct S as [G PL]. 
      destruct (update_sane s G) as (s' & E & H & _); [|exact O1|rewrite E; apply okp_ok, H].
      unfold placed, place in PL. lia. }
  destruct X as [->|(s' & E & H)]; [apply seek_sane; assumption|].
  exists s'. split; [exact E|]. split; [exact H|]. apply (op_effect s o P B s' E).
Qed.

Lemma run_sane l : forall s, sane s -> pack s -> Forall op_bytes l -> safe_run s l ->
  okp (fun s' => sane s' /\ pack s') (do_ops s l).
Proof.
  induction l as [|o l IH]; intros s S P B R; cbn [do_ops safe_run] in *; [apply okp_ok; auto|].
  inversion_clear B as [|? ? B1 B2]. destruct R as [R1 R2].
  destruct (op_sane s o S P B1 R1) as (s1 & E & S1 & P1). rewrite E. cbn [bind]. apply IH; auto.
Qed.

Lemma start_sane s : mounted s -> at_index s -> sane s.
Proof.
  intros (A & B & _ & _ & _ & H & _) (I1 & I2 & I3 & I4 & I5 & I6). pose proof (ty_facts (d_type s)) as TF.
  split; [unfold geo, blen; rewrite B; tauto|]. unfold placed, place. rewrite I1, I2. repeat split; try lia.
Qed.
