(** Counting bits, table lookup and finite sweeps: shared vocabulary, models no C code of its own. *)
From Coq Require Export ZifyBool ZifyNat.
From Verif Require Export Base.Outcome.

(** Number of one bits among bits 0 .. n-1. *)
Fixpoint ones (n : nat) (x : Z) : Z :=
  match n with
  | O => 0
  | S m => (if Z.testbit x (Z.of_nat m) then 1 else 0) + ones m x
  end.

Definition odd_bits (n : nat) (x : Z) : bool := Z.odd (ones n x).

(** a[i] for a constant C array: out of bounds is undefined behaviour. *)
Definition tab (t : list Z) (i : Z) : res Z :=
  if i <? 0 then UB else match nth_error t (Z.to_nat i) with Some v => Ok v | None => UB end.

(** 0, 1, ..., n-1 *)
Fixpoint zup (n : nat) (a : Z) : list Z := match n with O => [] | S m => a :: zup m (a + 1) end.
Definition zrange (n : Z) : list Z := zup (Z.to_nat n) 0.

Lemma in_zup n : forall a x, a <= x < a + Z.of_nat n -> In x (zup n a).
Proof.
  induction n as [|n IH]; intros a x H; [lia|]. cbn [zup].
  destruct (Z.eq_dec a x) as [->|Hne]; [left; reflexivity|right; apply IH; lia].
Qed.

Lemma in_zrange n x : 0 <= x < n -> In x (zrange n).
Proof. intros H. apply in_zup. lia. Qed.

Lemma sweep (n : Z) (P : Z -> bool) : forallb P (zrange n) = true -> forall x, 0 <= x < n -> P x = true.
Proof. intros H x Hx. rewrite forallb_forall in H. apply H, in_zrange, Hx. Qed.

Lemma sweep2 (n m : Z) (P : Z -> Z -> bool) :
  forallb (fun x => forallb (P x) (zrange m)) (zrange n) = true ->
  forall x y, 0 <= x < n -> 0 <= y < m -> P x y = true.
Proof.
  intros H x y Hx Hy. pose proof (sweep n _ H x Hx) as H1. cbn beta in H1.
  apply (sweep m _ H1 y Hy).
Qed.

Definition res_eqb (r : res Z) (v : Z) : bool := match r with Ok x => x =? v | _ => false end.
Lemma res_eqb_eq r v : res_eqb r v = true -> r = Ok v.
Proof. destruct r as [x| |]; cbn; try discriminate. intros H. apply Z.eqb_eq in H. congruence. Qed.

Lemma upd_nth {A} (l : list A) i j x :
  nth_error (upd l i x) j = if Nat.eqb i j then (match nth_error l j with Some _ => Some x | None => None end) else nth_error l j.
Proof.
  destruct (Nat.eqb_spec i j) as [->|H]; [|apply upd_other; exact H].
  revert j; induction l as [|a l IH]; intros [|j]; cbn; auto.
Qed.

Lemma tab_range t i v : tab t i = Ok v -> 0 <= i < Z.of_nat (length t).
Proof.
  unfold tab. destruct (i <? 0) eqn:E; [discriminate|]. destruct (nth_error t (Z.to_nat i)) eqn:N; [|discriminate].
  intros _. assert (Z.to_nat i < length t)%nat by (apply nth_error_Some; congruence). lia.
Qed.

Lemma tab_ok t i : 0 <= i < Z.of_nat (length t) -> exists v, tab t i = Ok v.
Proof.
  intros H. unfold tab. replace (i <? 0) with false by lia.
  destruct (nth_error t (Z.to_nat i)) eqn:N; [eauto|]. apply nth_error_None in N. lia.
Qed.
