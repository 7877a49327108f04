(** Several generators in one program.  A LayoutBitmapGenerator holds a raw pointer to the layout
    and a shared pointer to its bitmap; here both are addresses in a store, so that copies of
    generators and of the pointers GetMatrix returns are told apart from copies of what they
    point to.  Layouts and bitmaps live as long as anything points to them (shared_ptr; for
    layouts this is the caller's duty), so addresses are never reused. *)
From Verif Require Import Prelude M_Double M_LayoutData M_Vector2D M_BitMatrix M_Zond M_Generator S_Generator.

(** LayoutBitmapGenerator.h:31-48  the two pointers, and the other members (of go_rest the
    layout and the bitmap are not looked at). *)
Record gobject := mkgobject { go_data : option nat; go_bitmap : nat; go_rest : generator }.

(** All objects of a program: layouts, bitmaps, variables of type LayoutBitmapGenerator. *)
Record world := mkworld { w_layouts : list layout; w_matrices : list bm; w_generators : list gobject }.

(** A program starts with nothing. *)
Definition start : world := mkworld [] [] [].

(** The value of the generator o in w: its pointers followed.  LayoutBitmapGenerator.cpp:48, :371 *)
Definition load (w : world) (o : gobject) : generator :=
  let g := go_rest o in
  mkgen (match go_data o with None => None | Some p => nth_error (w_layouts w) p end) (gen_coords g) (gen_layers g)
    (nth (go_bitmap o) (w_matrices w) bm_empty) (gen_fragments g) (gen_geometryList g) (gen_legacyList g) (gen_zond g)
    (gen_dx g) (gen_dy g).

(** What a program does, one step at a time. *)
Inductive operation :=
| ONew                                                                   (* LayoutBitmapGenerator g; *)
| OCopy (k : nat)                                                        (* LayoutBitmapGenerator h(g); *)
| OAssign (k from : nat)                                                 (* g = h; *)
| OInit (k : nat) (p : option nat) (L : list Z) (mn mx : coord)
| OSetLayerArray (k : nat) (L : list Z)
| OProcess (k r c : nat)
| OLayout (d : layout)                                                   (* a new LayoutData *)
| OChangeLayout (p : nat) (d : layout)                                   (* the LayoutData at p changes *)
| OWrite (a : nat) (m : bm).                                             (* the program writes to the bitmap at a *)

(** Storing the generator variable k.  LayoutBitmapGenerator.h:31-48 *)
Definition set_gen (w : world) (k : nat) (o : gobject) : world :=
  mkworld (w_layouts w) (w_matrices w) (upd (w_generators w) k o).

(** LayoutBitmapGenerator.cpp:18-35, :393-403  preloadedData.data after Init: Reset clears it,
    and only the last statement but one sets it *)
Definition init_data (old : option nat) (g : generator) (p : option nat) (d : option layout) (L : list Z) (mn mx : coord) : option nat :=
  match d with
  | None => old
  | Some _ =>
      if match L with [] => true | _ => false end || V_not (gen_fragments g) then old
      else match snd (Init g d L mn mx) with Ok _ => p | _ => None end
  end.

(** Following a pointer to a layout; the outer [None]: no such layout.  LayoutBitmapGenerator.cpp:20 *)
Definition follow (ds : list layout) (p : option nat) : option (option layout) :=
  match p with
  | None => Some None
  | Some a => match nth_error ds a with Some d => Some (Some d) | None => None end
  end.

(** One step; [None]: undefined behaviour (or a variable or layout that does not exist).
    LayoutBitmapGenerator.h:56 for ONew; the implicit copy constructor and assignment for OCopy and
    OAssign (the class declares a destructor, LayoutBitmapGenerator.h:62, so there are no implicit
    moves: moving copies too); LayoutBitmapGenerator.cpp:18-35, :385-390, :38-94 for the calls;
    exceptions are caught. *)
Definition ostep (M : machine) (w : world) (op : operation) : option world :=
  match op with
  | ONew => Some (mkworld (w_layouts w) (w_matrices w ++ [bm_empty])
                    (w_generators w ++ [mkgobject None (length (w_matrices w)) gen_new]))
  | OCopy k =>
      match nth_error (w_generators w) k with
      | Some o => Some (mkworld (w_layouts w) (w_matrices w) (w_generators w ++ [o]))
      | None => None
      end
  | OAssign k from =>
      match nth_error (w_generators w) k, nth_error (w_generators w) from with
      | Some _, Some o => Some (set_gen w k o)
      | _, _ => None
      end
  | OInit k p L mn mx =>
      match nth_error (w_generators w) k, follow (w_layouts w) p with
      | Some o, Some d =>
          let g := load w o in
          Some (set_gen w k (mkgobject (init_data (go_data o) g p d L mn mx) (go_bitmap o) (fst (Init g d L mn mx))))
      | _, _ => None
      end
  | OSetLayerArray k L =>
      match nth_error (w_generators w) k with
      | Some o => Some (set_gen w k (mkgobject (go_data o) (go_bitmap o) (SetLayerArray (load w o) L)))
      | None => None
      end
  | OProcess k r c =>
      match nth_error (w_generators w) k with
      | Some o =>
          match Process (m_stray M) (m_heap M) (m_stack M) (load w o) r c with
          | (_, UB _) => None
          | (g, _) => Some (mkworld (w_layouts w) (upd (w_matrices w) (go_bitmap o) (gen_bitmap g))
                              (upd (w_generators w) k (mkgobject (go_data o) (go_bitmap o) g)))
          end
      | None => None
      end
  | OLayout d => Some (mkworld (w_layouts w ++ [d]) (w_matrices w) (w_generators w))
  | OChangeLayout p d => Some (mkworld (upd (w_layouts w) p d) (w_matrices w) (w_generators w))
  | OWrite a m => Some (mkworld (w_layouts w) (upd (w_matrices w) a m) (w_generators w))
  end.

(** A whole program. *)
Fixpoint run (M : machine) (w : world) (ops : list operation) : option world :=
  match ops with
  | [] => Some w
  | op :: t => match ostep M w op with Some w' => run M w' t | None => None end
  end.
