(** Every access to the cylinder buffer: proofs. *)
From Verif Require Export Dasd.Read.

Definition okp {A} (P : A -> Prop) (r : res A) : Prop := exists a, r = Ok a /\ P a.
Lemma okp_ok {A} (P : A -> Prop) a : P a -> okp P (Ok a).
Proof. intros H. exists a. split; [reflexivity|exact H]. Qed.
Lemma okp_bind {A B} (Q : A -> Prop) (P : B -> Prop) r f :
  okp Q r -> (forall a, Q a -> okp P (f a)) -> okp P (bind r f).
Proof. intros (a & -> & H) F. cbn [bind]. apply F. exact H. Qed.

(** *** The invariant *)

Definition blen (s : dasd) : Z := Z.of_nat (length (d_cbuf s)).

Definition geo (s : dasd) : Prop :=
  d_tsize s = ty_tsize (d_type s) /\ blen s = cyl_size (d_type s)
  /\ 0 <= d_tstart s /\ d_tstart s + d_tsize s <= blen s
  /\ 0 <= d_head s < ty_heads (d_type s).

(** Where the drive is on the track; [k] is 1 between the two halves of a transfer. *)
Definition place (k M : Z) (st : dpos) (tp rp cp cnt : Z) : Prop :=
  0 <= cnt < 65536 /\ 0 <= tp < 65536 /\ 0 <= cp /\
  match st with
  | PIndex => cp <= M \/ (k = 0 /\ cp = 65535)
  | PEnd => cp <= M
  | PUnk => cp <= M
  | PHa => 0 <= rp <= 5 /\ tp + k <= cp /\ cnt <= cp /\ (7 + k <= cnt -> 5 <= tp /\ rp <= tp) /\ cp <= M
  | _ => 0 <= rp <= tp /\ 5 <= tp /\ tp + k <= cp /\ cp <= M
  end.
Definition placed (k : Z) (m : Z) (s : dasd) : Prop :=
  place k (ty_bpt (d_type s) + m) (d_state s) (d_tpos s) (d_rpos s) (d_cpos s) (d_count s).
Definition sane (s : dasd) : Prop := geo s /\ placed 0 1 s.

(** What no transfer changes. *)
Definition same (s s' : dasd) : Prop :=
  d_file s' = d_file s /\ d_type s' = d_type s /\ d_tsize s' = d_tsize s /\ d_cyl s' = d_cyl s
  /\ d_ncyl s' = d_ncyl s /\ d_fpos s' = d_fpos s /\ d_head s' = d_head s /\ d_label s' = d_label s.

Definition rpost (s s' : dasd) : Prop :=
  same s s' /\ d_cbuf s' = d_cbuf s /\ d_dirty s' = d_dirty s /\ geo s' /\ placed 0 1 s'.

Lemma getb_okp {B} (P : B -> Prop) s i f :
  0 <= i < blen s -> (forall b, getb s i = Ok b -> okp P (f b)) -> okp P (bind (getb s i) f).
Proof.
  intros H F. destruct (tab_ok (d_cbuf s) i H) as [v E].
  unfold getb in *. rewrite E. cbn [bind]. apply F. exact E.
Qed.
Lemma rec_okp {B} (P : B -> Prop) s i f :
  0 <= d_rpos s + d_tstart s + i < blen s -> (forall b, okp P (f b)) -> okp P (bind (rec_at s i) f).
Proof. intros H F. unfold rec_at. apply getb_okp; auto. Qed.
Lemma recend_okp {B} (P : B -> Prop) s f :
  0 <= d_rpos s + d_tstart s -> d_rpos s + d_tstart s + 4 <= blen s ->
  (forall b, okp P (f b)) -> okp P (bind (rec_end s) f).
Proof.
  intros H1 H2 F. apply (okp_bind (fun _ => True)); [|auto]. unfold rec_end.
  repeat (apply rec_okp; [lia|intros ?]). apply okp_ok. exact I.
Qed.
Lemma lens_okp {B} (P : B -> Prop) s f :
  0 <= d_rpos s + d_tstart s -> d_rpos s + d_tstart s + 8 <= blen s ->
  (forall k d, okp P (f (set_dlen (set_klen s k) d))) -> okp P (bind (load_lens s) f).
Proof.
  intros H1 H2 F. apply (okp_bind (fun s' => exists k d, s' = set_dlen (set_klen s k) d)).
  - unfold load_lens. repeat (apply rec_okp; [lia|intros ?]). apply okp_ok. eauto.
  - intros a (k & d & ->). apply F.
Qed.

Lemma track_room t h : 0 <= h < ty_heads t ->
  0 <= ty_tsize t * h /\ ty_tsize t * h + ty_tsize t <= cyl_size t /\ ty_tsize t * h < 4294967296.
Proof.
  intros H. pose proof (ty_facts t). unfold cyl_size.
  assert (ty_tsize t * (h + 1) <= ty_tsize t * ty_heads t) by (apply Z.mul_le_mono_nonneg_l; lia).
  assert (0 <= ty_tsize t * h) by (apply Z.mul_nonneg_nonneg; lia).
  assert (ty_tsize t * h <= 7680 * 46) by (apply Z.mul_le_mono_nonneg; lia). lia.
Qed.
Lemma geo_new s : geo s -> geo (new_tstart s).
Proof.
  unfold geo, new_tstart, blen. ds. intros (A & B & C & D & E).
  destruct (track_room _ _ E) as (X & Y & Z0). rewrite A in *. rewrite u32_small by lia. repeat split; lia.
Qed.


Lemma bind_bind {A B C} (r : res A) (f : A -> res B) (g : B -> res C) :
  bind (bind r f) g = bind r (fun a => bind (f a) g).
Proof. destruct r; reflexivity. Qed.

Ltac u16s := unfold u16 in *; Z.div_mod_to_equations.
(** A leaf: everything is a variable or a number. *)
Ltac leaf := unfold rpost, same, placed, place, geo, blen in *; ds;
  repeat match goal with |- _ /\ _ => split | |- _ -> _ => intro end;
  try reflexivity; try assumption; try (exfalso; lia); try lia; try (u16s; lia).

Ltac split_if :=
  match goal with
  | |- context [if ?b then _ else _] =>
      match type of b with bool => destruct b eqn:? | _ => fail 1 end
  end.
Ltac turn :=
  rewrite ?bind_bind; ds;
  first
  [ apply rec_okp; [unfold geo, blen, placed, place in *; ds; lia|intros ?]
  | apply getb_okp; [unfold geo, blen, placed, place in *; ds; lia|intros ? _]
  | apply recend_okp; [unfold geo, blen, placed, place in *; ds; lia|unfold geo, blen, placed, place in *; ds; lia|intros []]
  | apply lens_okp; [unfold geo, blen, placed, place in *; ds; lia|unfold geo, blen, placed, place in *; ds; lia|intros ? ?]
  | apply okp_ok; ds
  | split_if ].

Definition read_case (s : dasd) (count data am ix : Z) : res rd :=
  match d_state s with
  | PIndex => read_index s count data am ix
  | PHa => read_ha s count data am ix
  | PGap1 => read_gap1 s count data am ix
  | PCnt0 => read_cnt0 s count data am ix
  | PAm => read_am s count data am ix
  | PCnt1 => read_cnt1 s count data am ix
  | PGap2 => read_gap PKey 2 s count data am ix
  | PKey => read_field (d_klen s) PGap3 s count data am ix
  | PGap3 => read_gap PData 1 s count data am ix
  | PData => read_field (d_dlen s) PAm s count data am ix
  | PEnd => Ok (read_end s data am ix)
  | PUnk => Ok (mkRd s data am ix true)
  end.

Lemma wp_read s count data am ix : geo s -> placed 1 1 s -> d_count s = u16 (count + 1) -> 0 <= count < 65536 ->
  okp (fun r => rpost s (r_s r)) (read_case s count data am ix).
Proof.
  intros G P C R. pose proof (ty_facts (d_type s)) as TF. pose proof (geo_new s G) as N.
  destruct s as [fi cb la ty he st di dr at' fl ms fp ts nc cy tp rp cp cn dl tz rc sta dy kl a b sp].
  unfold read_case, new_tstart in *. ds. 
  assert (T : d_type (mkDasd fi cb la ty he st di dr at' fl ms fp ts nc cy tp rp cp cn dl tz rc sta dy kl a b sp) = ty) by reflexivity.
  revert G P C R TF N. ds. intros G P C R TF N.
  unfold geo, placed, blen in G, P, N; revert G P N; ds; intros G P N.
  destruct sta; unfold place in P;
  unfold read_index, read_ha, read_gap1, read_cnt0, read_am, read_cnt1, read_gap, read_field, read_end, read_wrap, after_count, new_tstart,
    ck_init, ck_xor; ds.
  - repeat turn; leaf.
  - repeat turn; leaf.
  - repeat turn; leaf.
  - repeat turn; leaf.
  - repeat turn; leaf.
  - repeat turn; leaf.
  - repeat turn; leaf.
  - repeat turn; leaf.
  - repeat turn; leaf.
  - repeat turn; leaf.
  - repeat turn; leaf.
  - repeat turn; leaf.
Qed.
