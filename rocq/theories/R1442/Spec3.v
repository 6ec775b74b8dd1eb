(** Specification of the keys of the panel (C59). *)
From Verif Require Export R1442.Spec.

(** The parts of a device: what the channel sees, the two stations of the card path, the lamps and switches. *)
Definition interface (s : dev) :=
  (d_st s, d_sel s, d_req s, d_stk s, d_disc s, d_busy s, d_sense s, d_cmd s, d_cmd_done s, (d_status s, d_data s, d_data_rdy s, d_data_end s, d_post s, d_feed_done s, d_pend s)).
Definition stations (s : dev) := (d_rdr_card s, d_rdr_col s, d_rdr_full s, d_pch_card s, d_pch_col s, d_pch_full s, d_stk_sel s).
Definition switches (s : dev) := (d_rdy s, d_eof s, d_stop s).
(** Where cards lie. *)
Inductive place := Hopper | Stacker1 | Stacker2.
Definition at_place (p : place) (s : dev) : Card.Model.ctx := match p with Hopper => d_feed s | Stacker1 => d_stack0 s | Stacker2 => d_stack1 s end.
(** Only the cards at p have changed, and the panel shows the number of cards in the hopper. *)
Definition only_at (p : place) (s s' : dev) : Prop :=
  interface s' = interface s /\ stations s' = stations s /\ switches s' = switches s /\ (forall q, q <> p -> at_place q s' = at_place q s) /\
  d_hop_cnt s' = hopper_size (d_feed s').
(** No cards are at any other place than before. *)
Definition same_cards (s s' : dev) : Prop := forall p, at_place p s' = at_place p s.
(** There is no file to be punched there, or all the cards have been punched into it. *)
Definition settled (c : Card.Model.ctx) : Prop := c_file c = None \/ c_pos c = c_cards c.
Definition tidy (c : Card.Model.ctx) : Prop := (c_pos c <= c_cards c)%nat /\ settled c.
(** Nothing is punched from the hopper, and the stackers are tidy. *)
Definition tidy_dev (s : dev) : Prop := c_file (d_feed s) = None /\ tidy (d_stack0 s) /\ tidy (d_stack1 s).
(** Which key empties what. *)
Definition empty_key (p : place) : key := match p with Hopper => KEmpty | Stacker1 => KEmpty1 | Stacker2 => KEmpty2 end.
(** Cards of all kinds at all places, for the examples. *)
Definition some_card : card := 1 :: repeat 0 79.
Definition full_dev : dev :=
  mkD IDLE false false false false false 0 0 false 0 0 false false false false
      (Card.Model.Ctx MText [blank; some_card] 2 0 None) (Card.Model.Ctx MText [some_card; blank; some_card] 3 0 None)
      (Card.Model.Ctx MText [blank; blank] 2 0 None) some_card 0 true 2 blank 0 true false true false false [].
