(** The tape control, spacing forward: C136. *)
From Verif Require Import T2415.Spec T2415.Proofs8 T2415.Props.

(** C136: a forward space file command (3f, 319 with its parity) to a ready drive is accepted with channel end; the tape goes
    on behind the next tape mark, past all blocks before it, and the drive reports device end and nothing else. *)
Theorem C136_file : forall a pa s u t f l pre post fuel junk, between u t s -> 0 <= u < 6 -> with_parity (Z.lor (Z.land a 248) u) = Ok pa ->
  f = TAP \/ f = E11 -> on t (pre ++ encode f (map Rec l ++ [Mark]) ++ post) (length pre) -> t_fmt t = f -> t_eot t = false -> Forall (fun d => good_item f (Rec d)) l ->
  exists s1, seen a s (begin_op pa 319 ++ [Chan (out_tags false false false false false false false false false) 0 0]) = Ok (s1, [], [SNS_CHNEND]) /\ d_st s1 = IDLE /\
  exists n s2 t2, run a s1 (repeat (Fire fuel junk CbTape u) n ++ [Fire fuel junk CbDone u]) = Ok s2 /\ d_pend s2 = [] /\ d_st s2 = IDLE /\ d_sense0 s2 = 0 /\
    d_status s2 = SNS_DEVEND /\ has (d_rdyf s2) u = true /\ nth_error (d_tapes s2) (Z.to_nat u) = Some (Some t2) /\
    on t2 (pre ++ encode f (map Rec l ++ [Mark]) ++ post) (length pre + length (encode f (map Rec l ++ [Mark]))).
Proof. intros a pa s u t f l pre post fuel junk B U W TL O F ET G. exact (space_file_ok a pa s u t f l pre post fuel junk B U W TL O F ET G). Qed.
Print Assumptions C136_file.
Example C136_file_example : with_parity 63 = Ok 319 /\ between 3 (on_drive two_files true) (init_dev (six two_files true)) /\ on (on_drive two_files true) two_files 0 /\
  t_fmt (on_drive two_files true) = TAP /\ t_eot (on_drive two_files true) = false /\ Forall (fun d => good_item TAP (Rec d)) [[7; 8]; [9; 10]].
Proof.
  split; [reflexivity|]. split; [repeat split; reflexivity|]. split; [exact (attach_on drive9 two_files TAP true true (eq_refl (length (w_buf (t_win new_drive)))))|]. split; [reflexivity|]. split; [reflexivity|].
  constructor; [|constructor; [|constructor]]; (split; [discriminate|]; split; [repeat (constructor; [lia|]); constructor|cbn; lia]).
Qed.

(** A forward space block command (37) goes on behind the next block, or behind the next tape mark with unit exception.  One
    callback comes for every frame and one for the gap. *)
Theorem C136_block : forall a pa s u t f x pre post fuel junk, between u t s -> 0 <= u < 6 -> with_parity (Z.lor (Z.land a 248) u) = Ok pa ->
  f = TAP \/ f = E11 -> on t (pre ++ encode1 f x ++ post) (length pre) -> t_fmt t = f -> t_eot t = false -> good_item f x ->
  exists s1, seen a s (begin_op pa 55 ++ [Chan (out_tags false false false false false false false false false) 0 0]) = Ok (s1, [], [SNS_CHNEND]) /\ d_st s1 = IDLE /\
  exists s2 t2, run a s1 (repeat (Fire fuel junk CbTape u) (S (length (frames_of x))) ++ [Fire fuel junk CbDone u]) = Ok s2 /\ d_pend s2 = [] /\ d_st s2 = IDLE /\ d_sense0 s2 = 0 /\
    d_status s2 = match x with Rec _ => SNS_DEVEND | Mark => SNS_DEVEND + SNS_UNITEXP end /\ has (d_rdyf s2) u = true /\ nth_error (d_tapes s2) (Z.to_nat u) = Some (Some t2) /\
    on t2 (pre ++ encode1 f x ++ post) (length pre + length (encode1 f x)).
Proof. intros a pa s u t f x pre post fuel junk B U W TL O F ET G. exact (space_block_ok a pa s u t f x pre post fuel junk B U W TL O F ET G). Qed.
Print Assumptions C136_block.
Example C136_block_example : two_files = [] ++ encode1 TAP (Rec [7; 8]) ++ (encode TAP [Rec [9; 10]; Mark; Rec [5; 6]]) /\ with_parity 55 = Ok 55 /\ good_item TAP (Rec [7; 8]) /\ good_item TAP Mark.
Proof. split; [reflexivity|]. split; [reflexivity|]. split; [|exact I]. split; [discriminate|]. split; [repeat (constructor; [lia|]); constructor|cbn; lia]. Qed.
