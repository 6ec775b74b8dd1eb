(** C117..C119: the text of an instruction in the trace. *)
From Verif Require Import Disasm.Proofs.
From Verif Require Import Disasm.Spec.

(** C117: the text of any six bytes is written inside the buffers and never has a percent sign, so that it is safe as the
    format string that it becomes. *)
Theorem C117 v : an_inst v -> exists t, print_inst v = Ok t /\ (length t < 256)%nat /\ ~ In "%"%char t.
Proof. intros H. exists (print_text v). destruct (print_ok v H) as [E L]. split; [exact E|]. split; [exact L|apply print_np; exact H]. Qed.
Print Assumptions C117.
Example C117_example : an_inst [210; 255; 16; 0; 32; 8] /\ an_inst [255; 255; 255; 255; 255; 255].
Proof. split; (split; [reflexivity|]); repeat constructor; unfold is_byte; lia. Qed.

(** C118 (without the operation codes 84 and 85): two instructions have the same text just when they mean the same.
    Missing: WRD and RDD, see the refutation. *)
Theorem C118_partial v w : an_inst v -> an_inst w -> hd 0 v <> 132 -> hd 0 v <> 133 -> (print_inst v = print_inst w <-> meaning v = meaning w).
Proof.
  intros V W N1 N2. destruct (print_ok v V) as [E _]. destruct (print_ok w W) as [E' _]. rewrite E, E'. split.
  - intros H. apply print_inj; try assumption. congruence.
  - intros H. f_equal. apply print_same; assumption.
Qed.
Print Assumptions C118_partial.
Example C118_example : let v := [88; 18; 48; 4; 0; 0] in let w := [88; 18; 48; 4; 7; 7] in an_inst v /\ an_inst w /\ hd 0 v <> 132 /\ hd 0 v <> 133 /\ meaning v = meaning w /\ meaning v <> meaning [88; 18; 48; 5; 0; 0].
Proof. cbv zeta. unfold an_inst, is_byte. repeat split; try (repeat constructor; lia); discriminate. Qed.
Theorem C118_refuted : exists v w, an_inst v /\ an_inst w /\ print_inst v = print_inst w /\ meaning v <> meaning w.
Proof. exists [132; 1; 2; 3; 0; 0], [132; 4; 5; 6; 0; 0]. unfold an_inst, is_byte. repeat split; try (repeat constructor; lia); discriminate. Qed.
Print Assumptions C118_refuted.

(** C119 (without the operation codes 84 and 85): the text is the instruction in the notation of the assembler, one or two
    blanks behind it.
    Missing: WRD and RDD, see the refutation. *)
Theorem C119_partial v : an_inst v -> hd 0 v <> 132 -> hd 0 v <> 133 ->
  print_inst v = Ok (str (assembler v ++ " ")) \/ print_inst v = Ok (str (assembler v ++ "  ")).
Proof. intros V N1 N2. destruct (print_ok v V) as [E _]. rewrite E, !str_app. destruct (asm_ok v V N1 N2) as [->| ->]; auto. Qed.
Print Assumptions C119_partial.
Example C119_example : let v := [242; 115; 16; 0; 44; 255] in an_inst v /\ hd 0 v <> 132 /\ hd 0 v <> 133 /\ assembler v = "PACK 000(7,1),cff(3,2)"%string.
Proof. cbv zeta. unfold an_inst, is_byte. repeat split; try (repeat constructor; lia); discriminate. Qed.
Theorem C119_refuted : exists v, an_inst v /\ mnemonic (hd 0 v) = Some "RDD"%string /\ print_inst v = Ok (str "?85? ").
Proof. exists [133; 1; 2; 3; 0; 0]. unfold an_inst, is_byte. repeat split; repeat constructor; lia. Qed.
Print Assumptions C119_refuted.
