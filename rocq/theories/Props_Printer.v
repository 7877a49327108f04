(** C90: printing an object. *)
From Coq Require Import Lia.
From Verif Require Import Prelude M_LayoutData S_Msk M_Printer S_Printer P_Printer.
Local Open Scope Z_scope.

(** A rectangle: the text, and nothing on standard error. *)
Theorem C90_rectangle_text : forall g d ly ty mn mx lt rb, rectangle_object g ly ty mn mx lt rb ->
  exists t, PrintGeometry (Some g) d = Ok (t, []) /\ rectangle_text d ly ty mn mx lt rb t.
Proof. exact print_rectangle. Qed.

(** The text tells everything: rectangles that print alike have the same depth, layer, type,
    bounding box and corners. *)
Theorem C90_the_text_tells_the_rectangle : forall g d ly ty mn mx lt rb g' d' ly' ty' mn' mx' lt' rb',
  rectangle_object g ly ty mn mx lt rb -> rectangle_object g' ly' ty' mn' mx' lt' rb' ->
  PrintGeometry (Some g) d = PrintGeometry (Some g') d' ->
  d = d' /\ ly = ly' /\ ty = ty' /\ mn = mn' /\ mx = mx' /\ lt = lt' /\ rb = rb'.
Proof.
  intros g d ly ty mn mx lt rb g' d' ly' ty' mn' mx' lt' rb' R R' E.
  destruct (print_rectangle g d _ _ _ _ _ _ R) as (t & P & T). destruct (print_rectangle g' d' _ _ _ _ _ _ R') as (t' & P' & T').
  rewrite P, P' in E. injection E as E. rewrite <- E in T'. exact (text_tells _ _ _ _ _ _ _ _ _ _ _ _ _ _ _ T T').
Qed.

(** A null pointer gives a message on standard error and no exception; objects of other types
    nothing at all; a rectangle with fewer than three points, or one whose object is of another
    class, is undefined behaviour. *)
Theorem C90_other_arguments : forall d,
  PrintGeometry None d = Ok ([], lit "Invalid Geometry" ++ [x0a]) /\
  (forall g, g_type g <> GTrectangle -> PrintGeometry (Some g) d = Ok ([], [])) /\
  (forall g, g_type g = GTrectangle -> (length (g_coords g) < 3)%nat -> exists u, PrintGeometry (Some g) d = UB u) /\
  (forall g, g_type g = GTrectangle -> (forall t, g_class g <> CRectangle t) -> exists u, PrintGeometry (Some g) d = UB u).
Proof.
  intros d. split; [reflexivity|]. split; [intros g N; unfold PrintGeometry; destruct (g_type g); congruence|]. split.
  - intros g T L. unfold PrintGeometry, InPrintRectangle. rewrite T. cbn [gt_eqb negb].
    destruct (g_class g); try (eexists; reflexivity). unfold at_.
    assert (N : nth_error (g_coords g) 2 = None) by (apply nth_error_None; lia). rewrite N.
    destruct (nth_error (g_coords g) 0); cbn [bind]; eexists; reflexivity.
  - intros g T N. unfold PrintGeometry, InPrintRectangle. rewrite T. cbn [gt_eqb negb].
    destruct (g_class g) as [| | | |t|]; try (eexists; reflexivity). exfalso. exact (N t eq_refl).
Qed.

Example C90_hypotheses_met :
  let g := mkgeom GTrectangle 12 [mkcoord 0 50; mkcoord (-7) 50; mkcoord 100 0; mkcoord 0 0] (mkcoord 0 0) (mkcoord 100 (-2147483648)) (CRectangle 3) in
  rectangle_object g 12 3 (mkcoord 0 0) (mkcoord 100 (-2147483648)) (mkcoord 0 50) (mkcoord 100 0) /\
  PrintGeometry (Some g) 0 = Ok (
    line 0 (lit "Rectangle{") ++ line 4 (lit "Geometry {") ++ line 6 (lit "Layer = 12") ++ line 6 (lit "Min = {0, 0}") ++
    line 6 (lit "Max = {100, -2147483648}") ++ line 6 (lit "}") ++ line 0 [] ++ line 2 (lit "Type 3") ++
    line 2 (lit "LeftTop = {0, 50}") ++ line 2 (lit "RightBot = {100, 0}") ++ line 0 (lit "}"), []).
Proof.
  intros g. split; [|vm_compute; reflexivity].
  unfold rectangle_object, coord32, int32. cbn [g cx cy g_type g_class g_layer g_min g_max g_coords nth_error]. intuition (reflexivity || lia).
Qed.

Print Assumptions C90_rectangle_text.
Print Assumptions C90_the_text_tells_the_rectangle.
Print Assumptions C90_other_arguments.
