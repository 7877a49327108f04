(** C87: printing a matrix. *)
From Coq Require Import Lia.
From Verif Require Import Prelude P_Prelude M_Vector2D M_BitMatrix S_Matrix P_BitMatrix M_Print S_Print P_Print.

(** Print writes one line of 0s and 1s per row, in order, then an empty line. *)
Theorem C87_printed_text : forall m A, shows m A -> exists t, Print m = Ok t /\ picture_text A t.
Proof. intros m A S. exists (text_of A). split; [exact (Print_shown m A S)|apply text_pictures]. Qed.

(** So the text tells the matrix: two matrices that print alike have the same size and cells. *)
Theorem C87_the_text_tells_the_matrix : forall m m' A B, shows m A -> shows m' B -> nonempty A -> nonempty B ->
  (Print m = Print m' <-> asame A B).
Proof.
  intros m m' A B S S' N N'. rewrite (Print_shown m A S), (Print_shown m' B S'). split.
  - intros E. injection E as E. apply (text_determines A B (text_of A) N N'); [apply text_pictures|rewrite E; apply text_pictures].
  - intros (R & C & H). f_equal. unfold text_of. f_equal. f_equal. rewrite <- R. apply map_ext_in. intros i Hi. apply in_seq in Hi. f_equal.
    unfold row_chars. rewrite <- C. apply map_ext_in. intros j Hj. apply in_seq in Hj. rewrite H by lia. reflexivity.
Qed.

Example C87_hypotheses_met : exists m, Set_ (BM_ctor infinite_memory 2 3) 1 2 true = Ok m /\
  Print m = Ok (lit "000" ++ [line_feed] ++ lit "001" ++ [line_feed; line_feed]) /\
  Print (BM_ctor infinite_memory 0 0) = Ok [line_feed].
Proof. run_example. Qed.

Print Assumptions C87_printed_text.
Print Assumptions C87_the_text_tells_the_matrix.
