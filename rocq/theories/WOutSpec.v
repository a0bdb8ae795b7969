(** Specification of the outcome of writing to an arbitrary file, in the profile with overflow checks ([Checked]) and in the
    one without ([Wrapping]): the result, the error and its text or the panic, and the file that is left.  LayoutSpec.v does
    this for files and items without the flaws of WPanicSpec.v; here nothing is excluded. *)

From Coq Require Import List NArith ZArith Bool String.
From Verif Require Import Base Types Utf TagSpec FileSpec FailSpec PanicSpec WPanicSpec Display ErrSpec FirstSpec OutSpec LayoutSpec.
Import ListNotations.
Local Open Scope list_scope.

(** * Finding the boxes *)

(** A box at [q] in a container of kind [l] that is not gone into: the end of those that are noted is looked for, the others
    are skipped. *)
Inductive pass_out (m : mode) (l : level) (q : N) (id : fourcc) (head size : N) : list fourcc -> out -> Prop :=
| Pass_noted : forall o, noted l id <> [] -> ended m q size (q + head) o -> pass_out m l q id head size (noted l id) o
| Pass_other : forall o, noted l id = [] -> skipped m q head size o -> pass_out m l q id head size [] o.

(** The containers around a place, the innermost first: the length of the content, how much of it the boxes announced so
    far, and the boxes found so far.  The box that a container is in counts as soon as it is entered, see [OutSpec.around];
    the boxes in it are added when it is left. *)
Definition open_boxes := list (level * N * N * list node).
Definition open_names (w : open_boxes) : list fourcc := flat_map (fun x => level_name (fst (fst (fst x)))) (rev w).
(** The places the writer comes to, after a number of steps. *)
Inductive comes (m : mode) (f : bytes) : nat -> open_boxes -> N -> Prop :=
| Come_first : forall p, type_out m f (Goes p) -> comes m f 0 [(Top, blen f - p, 0, [])] p
| Come_past : forall k l n d ns w q id head size nm p d', comes m f k ((l, n, d, ns) :: w) q -> d < n -> box_at f q id head size -> scan_opens l id = None ->
    pass_out m l q id head size nm (Goes p) -> kept m (d + size) d' -> comes m f (S k) ((l, n, d', ns ++ [Node q head size id []]) :: w) p
| Come_into : forall k l n d ns w q id head size l' s p n', comes m f k ((l, n, d, ns) :: w) q -> d < n -> box_at f q id head size -> scan_opens l id = Some (l', s) ->
    enter_out m f l' s q head size (Goes p) -> less m size head n' ->
    comes m f (S k) ((l', n', s, []) :: (l, n, d + size, ns ++ [Node q head size id []]) :: w) p
| Come_out : forall k l' n' d' inside l n d ns w q head size id p d'', comes m f k ((l', n', d', inside) :: (l, n, d, ns ++ [Node q head size id []]) :: w) p -> n' <= d' -> kept m d d'' ->
    comes m f (S k) ((l, n, d'', ns ++ [Node q head size id inside]) :: w) p.
(** All boxes are found, *)
Definition finds (m : mode) (f : bytes) (ns : list node) : Prop := exists k n d q, comes m f k [(Top, n, d, ns)] q /\ n <= d.
(** or something stops the writer, in the boxes with the given names, *)
Inductive scan_stops (m : mode) (f : bytes) : list fourcc -> fault -> Prop :=
| Scan_type : forall x, type_out m f (Stops x) -> scan_stops m f [] x
| Scan_head : forall k l n d ns w q e s, comes m f k ((l, n, d, ns) :: w) q -> d < n -> head_wrong f q e s -> scan_stops m f (open_names ((l, n, d, ns) :: w)) (Fails e s)
| Scan_pass : forall k l n d ns w q id head size nm x, comes m f k ((l, n, d, ns) :: w) q -> d < n -> box_at f q id head size -> scan_opens l id = None ->
    pass_out m l q id head size nm (Stops x) -> scan_stops m f (open_names ((l, n, d, ns) :: w) ++ nm) x
| Scan_sum : forall k l n d ns w q id head size nm p, comes m f k ((l, n, d, ns) :: w) q -> d < n -> box_at f q id head size -> scan_opens l id = None ->
    pass_out m l q id head size nm (Goes p) -> beyond m (d + size) -> scan_stops m f (open_names ((l, n, d, ns) :: w)) (Breaks POverflow)
| Scan_enter : forall k l n d ns w q id head size l' s x, comes m f k ((l, n, d, ns) :: w) q -> d < n -> box_at f q id head size -> scan_opens l id = Some (l', s) ->
    enter_out m f l' s q head size (Stops x) -> scan_stops m f (open_names ((l, n, d, ns) :: w) ++ level_name l') x
| Scan_over : forall k l' n' d' inside l n d ns w p, comes m f k ((l', n', d', inside) :: (l, n, d, ns) :: w) p -> n' <= d' -> beyond m d ->
    scan_stops m f (open_names ((l, n, d, ns) :: w)) (Breaks POverflow)
| Scan_none : forall ns, finds m f ns -> movie ns = None ->
    scan_stops m f [] (Fails (EAtomNotFound (id4 "moov")) (txt "Missing necessary data, no movie (moov) atom found")).
(** or the writer never gets to the end. *)
Definition scans_on (m : mode) (f : bytes) : Prop := forall c, exists w q, comes m f c w q.

(** * Signed numbers of 64 bits *)

Definition signed (n : N) : Z := if n <? 2 ^ 63 then Z.of_N n else (Z.of_N n - 2 ^ 64)%Z.
Definition unsigned (z : Z) : N := Z.to_N (z mod 2 ^ 64).
Definition in_range (z : Z) : Prop := (- 2 ^ 63 <= z < 2 ^ 63)%Z.
(** [c] is [a] kept in 64 bits. *)
Definition turned (m : mode) (a c : Z) : Prop := in_range a /\ c = a \/ m = Wrapping /\ ~ in_range a /\ in_range c /\ unsigned c = unsigned a.
Definition too_big (m : mode) (a : Z) : Prop := m = Checked /\ ~ in_range a.

(** * What is written for the items *)

(** The length that is announced for a value: of UTF-16 text, half of it. *)
Definition value_len (d : data) : N := match d with DUtf16 _ => blen (payload d) / 2 | _ => blen (payload d) end.
Definition name_len (s : ustring) : N := blen (enc8 s).
Definition item_len (a : atom_data) : N :=
  8 + match ad_ident a with IFourcc _ => 0 | IFreeform mean name => (12 + name_len mean) + (12 + name_len name) end + fold_right N.add 0 (map (fun d => 16 + value_len d) (ad_data a)).
Definition list_len (items : list atom_data) : N := fold_right N.add 0 (map item_len items).
(** The head of a new box with a content of [n] bytes, and its size. *)
Definition new_head (id : fourcc) (n : N) : bytes := header (2 ^ 32 <=? n + 8) id n.
Definition new_size (n : N) : N := if 2 ^ 32 <=? n + 8 then n + 16 else n + 8.

(** It is written in pieces.  The size of some of them is computed in 32 bits: from [Some n], with the length reduced
    before. *)
Definition piece := (option N * bytes)%type.
Definition text_piece (id : fourcc) (s : ustring) : piece := (Some (12 + name_len s mod 2 ^ 32), be 4 (12 + name_len s) ++ fc_bytes id ++ zeros 4 ++ enc8 s).
Definition value_piece (d : data) : piece := (Some (16 + value_len d mod 2 ^ 32), be 4 (16 + value_len d) ++ fc_bytes (id4 "data") ++ be 4 (type_code d) ++ zeros 4 ++ payload d).
Definition item_pieces (a : atom_data) : list piece :=
  (None, be 4 (item_len a)) ::
  match ad_ident a with
  | IFourcc id => [(None, fc_bytes id)]
  | IFreeform mean name => [(None, fc_bytes (id4 "----")); text_piece (id4 "mean") mean; text_piece (id4 "name") name]
  end ++ map value_piece (ad_data a).
Definition list_pieces (items : list atom_data) : list piece := (None, new_head (id4 "ilst") (list_len items)) :: flat_map item_pieces items.
Definition handler_piece : piece := (None, render new_hdlr).
Definition meta_content (items : list atom_data) : N := 4 + 33 + new_size (list_len items).
Definition meta_pieces (items : list atom_data) : list piece := (None, new_head (id4 "meta") (meta_content items) ++ zeros 4) :: handler_piece :: list_pieces items.
Definition udta_pieces (items : list atom_data) : list piece := (None, new_head (id4 "udta") (new_size (meta_content items))) :: meta_pieces items.
(** Which boxes, and the length announced for them. *)
Definition pieces (items : list atom_data) (mo : node) : list piece :=
  match user_data mo, metadata mo with
  | None, _ => udta_pieces items
  | Some _, None => meta_pieces items
  | Some _, Some e => match final (id4 "hdlr") (n_inside e) with Some _ => [] | None => [handler_piece] end ++ list_pieces items
  end.
Definition pieces_len (items : list atom_data) (mo : node) : N :=
  match user_data mo, metadata mo with
  | None, _ => new_size (new_size (meta_content items))
  | Some _, None => new_size (meta_content items)
  | Some _, Some e => match final (id4 "hdlr") (n_inside e) with Some _ => 0 | None => 33 end + new_size (list_len items)
  end.
(** What is written until a size is too large, and whether one is. *)
Definition too_long (m : mode) (p : piece) : bool := match m, fst p with Checked, Some n => 2 ^ 32 <=? n | _, _ => false end.
Fixpoint poured (m : mode) (l : list piece) : bytes :=
  match l with [] => [] | p :: r => if too_long m p then [] else snd p ++ poured m r end.
Definition all_poured (m : mode) (l : list piece) : bool := forallb (fun p => negb (too_long m p)) l.

(** * The plan *)

(** The item list there is, the innermost box around its place, and the one of them behind which the rest of the file is
    moved. *)
Definition old_list (mo : node) : option node := final (id4 "ilst") (within_it (metadata mo)).
Definition host (mo : node) : node := match metadata mo with Some e => e | None => match user_data mo with Some u => u | None => mo end end.
Definition edge (mo : node) : node := match old_list mo with Some i => i | None => host mo end.
Definition less_old (mo : node) : Z := match old_list mo with Some i => (- signed (n_size i))%Z | None => 0%Z end.
(** The new boxes are written at [s], the rest of the file, from [e] on, is moved by [d]. *)
Definition planned (m : mode) (items : list atom_data) (mo : node) (s e : N) (d : Z) : Prop :=
  kept m (n_at (edge mo) + n_size (edge mo)) e /\ s = match old_list mo with Some i => n_at i | None => e end /\
  exists d0, turned m (less_old mo) d0 /\ turned m (d0 + signed (pieces_len items mo)) d.
Inductive plan_stops (m : mode) (f : bytes) (items : list atom_data) (mo : node) : fault -> Prop :=
| Plan_end : beyond m (n_at (edge mo) + n_size (edge mo)) -> plan_stops m f items mo (Breaks POverflow)
| Plan_old : too_big m (less_old mo) -> plan_stops m f items mo (Breaks POverflow)
| Plan_new : forall d0, turned m (less_old mo) d0 -> too_big m (d0 + signed (pieces_len items mo)) -> plan_stops m f items mo (Breaks POverflow)
| Plan_cut : forall e, kept m (n_at (edge mo) + n_size (edge mo)) e -> lacking m (blen f) e -> plan_stops m f items mo (Breaks POverflow)
| Plan_much : forall s e d k, planned m items mo s e d -> less m (blen f) e k -> 2 ^ 63 <= k -> plan_stops m f items mo (Breaks PCapacity)
| Plan_far : forall s e d k, planned m items mo s e d -> less m (blen f) e k -> k < 2 ^ 63 -> 2 ^ 63 <= e -> plan_stops m f items mo (Fails EIoSeek []).
Definition ready (m : mode) (f : bytes) (items : list atom_data) (mo : node) (s e : N) (d : Z) : Prop :=
  planned m items mo s e d /\ e <= blen f.

(** * The modifications *)

(** Bytes written at [p]; the space behind the end of the file is filled with zeros. *)
Definition patch (p : N) (d : bytes) (f : bytes) : bytes :=
  match d with [] => f | _ => firstn (N.to_nat p) (f ++ zeros (p - blen f)) ++ d ++ skipn (N.to_nat (p + blen d)) f end.
(** The file with a length of [n]. *)
Definition resize (n : N) (f : bytes) : bytes := firstn (N.to_nat n) f ++ zeros (n - blen f).

(** The offsets before the first one that is too large. *)
Definition too_far (m : mode) (d : Z) (o : N) : Prop := too_big m (signed o + d).
Definition new_entries (wide : bool) (d : Z) (os : list N) : bytes := let w := N.to_nat (entry_size wide) in flat_map (fun o => be w (shift_entry w d o)) os.
(** A table: what it is, where its content is in [g], and the file afterwards. *)
Definition table_says (wide : bool) : ustring := txt (if wide then "Unknown 64bit sample table chunk offset (co64) version" else "Unknown sample table chunk offset (stco) version").
Definition count_says (wide : bool) : ustring :=
  txt (if wide then "Sample table chunk offset 64 (co64) offset table size doesn't match atom length" else "Sample table chunk offset (stco) offset table size doesn't match atom length").
Definition table_start (n : node) : N := n_at n + n_head n.
Inductive table_out (m : mode) (d : Z) (wide : bool) (n : node) (g : bytes) : bytes -> option (list fourcc * fault) -> Prop :=
| Table_version : forall e s, full_wrong g (table_start n) 0 (table_says wide) e s -> table_out m d wide n g g (Some ([table_name wide], Fails e s))
| Table_cut : full_fine g (table_start n) 0 -> blen g < table_start n + 8 -> table_out m d wide n g g (Some ([table_name wide], Fails EIoEof []))
| Table_short : full_fine g (table_start n) 0 -> table_start n + 8 <= blen g -> lacking m (n_size n) (n_head n) -> table_out m d wide n g g (Some ([], Breaks POverflow))
| Table_count : forall c, full_fine g (table_start n) 0 -> table_start n + 8 <= blen g -> less m (n_size n) (n_head n) c -> 8 + entry_size wide * N.of_nat (count g n) <> c ->
    table_out m d wide n g g (Some ([table_name wide], Fails EParsing (count_says wide)))
| Table_offsets : full_fine g (table_start n) 0 -> less m (n_size n) (n_head n) (8 + entry_size wide * N.of_nat (count g n)) -> table_start n + 8 <= blen g ->
    blen g < table_start n + 8 + entry_size wide * N.of_nat (count g n) -> table_out m d wide n g g (Some ([table_name wide], Fails EIoEof []))
| Table_far : forall os o os', full_fine g (table_start n) 0 -> less m (n_size n) (n_head n) (8 + entry_size wide * N.of_nat (count g n)) ->
    table_start n + 8 + entry_size wide * N.of_nat (count g n) <= blen g -> offsets g wide (table_start n + 8) (count g n) = os ++ o :: os' ->
    Forall (fun x => ~ too_far m d x) os -> too_far m d o ->
    table_out m d wide n g (patch (table_start n + 8) (new_entries wide d os) g) (Some ([], Breaks POverflow))
| Table_fine : full_fine g (table_start n) 0 -> less m (n_size n) (n_head n) (8 + entry_size wide * N.of_nat (count g n)) ->
    table_start n + 8 + entry_size wide * N.of_nat (count g n) <= blen g -> Forall (fun x => ~ too_far m d x) (offsets g wide (table_start n + 8) (count g n)) ->
    table_out m d wide n g (patch (table_start n + 8) (new_entries wide d (offsets g wide (table_start n + 8) (count g n))) g) None.
Inductive tables_out (m : mode) (d : Z) : list (bool * node) -> bytes -> bytes -> option (list fourcc * fault) -> Prop :=
| Tables_end : forall g, tables_out m d [] g g None
| Tables_next : forall wide n l g g' g'' o, table_out m d wide n g g' None -> tables_out m d l g' g'' o -> tables_out m d ((wide, n) :: l) g g'' o
| Tables_stop : forall wide n l g g' x, table_out m d wide n g g' (Some x) -> tables_out m d ((wide, n) :: l) g g' (Some x).
Definition tables_done (m : mode) (d : Z) (ns : list node) (f g : bytes) (o : option (list fourcc * fault)) : Prop :=
  if adjusts ns then tables_out m d (tables_of ns) f g o else g = f /\ o = None.

(** The fields of the sizes of the boxes around the list, one write each. *)
Definition size_fields (d : Z) (n : node) : list (N * bytes) :=
  if n_head n =? 16 then [(n_at n, be 4 1); (n_at n + 8, be 8 (shift_entry 8 d (n_size n)))] else [(n_at n, be 4 (shift_entry 4 d (n_size n)))].
Definition patches (l : list (N * bytes)) (g : bytes) : bytes := fold_left (fun g x => patch (fst x) (snd x) g) l g.

(** The rest of the file is moved only after the new boxes have been written, and the last size is still in the buffer when
    the length of the file is set. *)
Inductive ending := Ends | Halts (ns : list fourcc) (x : fault).
Inductive rest_out (m : mode) (f : bytes) (items : list atom_data) (mo : node) (s e : N) (d : Z) (g : bytes) : ending -> bytes -> Prop :=
| Rest_long : all_poured m (pieces items mo) = false ->
    rest_out m f items mo s e d g (Halts [] (Breaks POverflow)) (patch s (poured m (pieces items mo)) g)
| Rest_over : all_poured m (pieces items mo) = true -> too_big m (Z.of_N e + d) ->
    rest_out m f items mo s e d g (Halts [] (Breaks POverflow)) (patch s (poured m (pieces items mo)) g)
| Rest_far : all_poured m (pieces items mo) = true -> ~ too_big m (Z.of_N e + d) -> 2 ^ 63 <= unsigned (Z.of_N e + d) ->
    rest_out m f items mo s e d g (Halts [] (Fails EIoSeek [])) (patch s (poured m (pieces items mo)) g)
| Rest_done : all_poured m (pieces items mo) = true -> ~ too_big m (Z.of_N e + d) -> unsigned (Z.of_N e + d) < 2 ^ 63 ->
    rest_out m f items mo s e d g Ends (patch (unsigned (Z.of_N e + d)) (skipn (N.to_nat e) f) (patch s (poured m (pieces items mo)) g)).
Inductive write_out (m : mode) (f : bytes) (items : list atom_data) : ending -> bytes -> Prop :=
| Write_scan : forall nm x, scan_stops m f nm x -> write_out m f items (Halts nm x) f
| Write_plan : forall ns mo x, finds m f ns -> movie ns = Some mo -> plan_stops m f items mo x -> write_out m f items (Halts [] x) f
| Write_tables : forall ns mo s e d g nm x, finds m f ns -> movie ns = Some mo -> ready m f items mo s e d -> tables_done m d ns f g (Some (nm, x)) ->
    write_out m f items (Halts nm x) g
| Write_sizes : forall ns mo s e d g bs b bs', finds m f ns -> movie ns = Some mo -> ready m f items mo s e d -> tables_done m d ns f g None ->
    around mo = bs ++ b :: bs' -> Forall (fun b => ~ too_far m d (n_size b)) bs -> too_far m d (n_size b) ->
    write_out m f items (Halts [] (Breaks POverflow)) (patches (flat_map (size_fields d) bs) g)
| Write_length : forall ns mo s e d g, finds m f ns -> movie ns = Some mo -> ready m f items mo s e d -> tables_done m d ns f g None ->
    Forall (fun b => ~ too_far m d (n_size b)) (around mo) -> too_big m (Z.of_N (blen f) + d) ->
    write_out m f items (Halts [] (Breaks POverflow)) (patches (flat_map (size_fields d) (around mo)) g)
| Write_no_length : forall ns mo s e d g, finds m f ns -> movie ns = Some mo -> ready m f items mo s e d -> tables_done m d ns f g None ->
    Forall (fun b => ~ too_far m d (n_size b)) (around mo) -> ~ too_big m (Z.of_N (blen f) + d) -> 2 ^ 63 <= unsigned (Z.of_N (blen f) + d) ->
    write_out m f items (Halts [] (Fails EIoSeek [])) (patches (flat_map (size_fields d) (around mo)) g)
| Write_rest : forall ns mo s e d g fs p v o g', finds m f ns -> movie ns = Some mo -> ready m f items mo s e d -> tables_done m d ns f g None ->
    Forall (fun b => ~ too_far m d (n_size b)) (around mo) -> ~ too_big m (Z.of_N (blen f) + d) -> unsigned (Z.of_N (blen f) + d) < 2 ^ 63 ->
    flat_map (size_fields d) (around mo) = fs ++ [(p, v)] ->
    rest_out m f items mo s e d (patch p v (resize (unsigned (Z.of_N (blen f) + d)) (patches fs g))) o g' -> write_out m f items o g'.
