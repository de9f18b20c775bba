(** Model of /repo/impactutils/rupture/factory.py (polygons and the text
    format), of the polygons of rupture/quad_rupture.py and of
    rupture/edge_rupture.py.  Coordinates are exact reals: not-a-number and
    infinite coordinates are left out. *)
From Coq Require Import ZArith Reals String Ascii Bool List.
From Verif Require Import PyBase PyStr VecModel GeoModel RuptModel.
Import ListNotations.
Open Scope R_scope.

(** ** Text *)
(** str.isspace for the characters of latin-1 *)
Definition is_space (c : ascii) : bool :=
  let n := nat_of_ascii c in
  ((9 <=? n)%nat && (n <=? 13)%nat) || ((28 <=? n)%nat && (n <=? 32)%nat) || (n =? 133)%nat || (n =? 160)%nat.
(** s.strip() *)
Definition lstrip (s : str) : str := snd (span is_space s).
Definition strip (s : str) : str := rev (lstrip (rev (lstrip s))).
(** s.split() *)
Fixpoint words_from (cur : str) (s : str) : list str :=   (* cur: the word being read, reversed *)
  match s with
  | [] => match cur with [] => [] | _ => [rev cur] end
  | c :: s' => if is_space c then match cur with [] => words_from [] s' | _ => rev cur :: words_from [] s' end
               else words_from (c :: cur) s'
  end.
Definition split_blanks (s : str) : list str := words_from [] s.
(** s.split(c) *)
Fixpoint split_at (sep : ascii) (s : str) : list str :=
  match s with
  | [] => [[]]
  | c :: s' => if Ascii.eqb c sep then [] :: split_at sep s'
               else match split_at sep s' with h :: t => (c :: h) :: t | [] => [[c]] end
  end.
(** s.startswith(c) for one character *)
Definition begins (c : ascii) (s : str) : bool := match s with x :: _ => Ascii.eqb x c | [] => false end.
Definition hash : ascii := chr 35.
Definition gt : ascii := chr 62.
Definition comma : ascii := chr 44.

(** ** Polygons *)
Definition depth_of (p : point) : R := snd p.
Definition point_eqb (a b : point) : bool :=
  let '(a1, a2, a3) := a in let '(b1, b2, b3) := b in reqd a1 b1 && reqd a2 b2 && reqd a3 b3.
(** for j in range(n_pairs): p[j] against p[-(j + 2)] *)
Fixpoint check_pairs (p : list point) (js : list nat) : res unit :=
  match js with
  | [] => Ok tt
  | j :: js' =>
      match nth_error p j, nth_error (rev p) (j + 1) with
      | Some top, Some bot => if rleb (depth_of bot) (depth_of top) then Err ValueError else check_pairs p js'
      | _, _ => Err IndexError
      end
  end.
(** factory.py:225-261  _check_polygon *)
Definition check_polygon (p : list point) : res unit :=
  let n_points := length p in
  if Nat.even n_points then Err ValueError else
  match p, rev p with
  | a :: _, z :: _ =>
      if negb (point_eqb a z) then Err ValueError
      else check_pairs p (seq 0 (Nat.div2 (n_points - 1)))
  | _, _ => Err IndexError
  end.
(** factory.py:186-222  _rotate_polygon *)
Definition rotate_polygon (p : list point) : res (list point) :=
  match p, rev p with
  | a :: _, z :: _ =>
      if negb (point_eqb z a) then Err Generic else
      match removelast p with
      | [] => Err IndexError
      | b :: body =>
          let r := body ++ [b] in
          match r with [] => Err IndexError | f :: _ => Ok (r ++ [f]) end
      end
  | _, _ => Err IndexError
  end.

(** factory.py:315-360  text_to_json: one line.  [fparse] is float(): [None] for ValueError.
    The state is the reference, the polygons (latest first) and the polygon being read
    (latest vertex first). *)
Definition tstate := (str * list (list point) * list point)%type.
Definition flush (polygons : list (list point)) (polygon : list point) : list (list point) :=
  match polygon with [] => polygons | _ => rev polygon :: polygons end.
(** factory.py:334-343 *)
Definition line_parts (new_format : bool) (line : str) : res (list str) :=
  match split_blanks line with
  | [w] => if new_format then Err Generic
           else match split_at comma line with [_] => Err Generic | ps => Ok ps end
  | ps => Ok ps
  end.
Definition read_line (fparse : str -> option R) (new_format : bool) (st : tstate) (line : str) : res tstate :=
  let '(reference, polygons, polygon) := st in
  match strip line with
  | [] => Ok st                                                           (* 319-320 *)
  | _ =>
    if begins hash (strip line) then                                      (* 322-325 *)
      Ok (reference ++ py_replace (strip line) [hash] [], polygons, polygon)
    else if begins gt (strip line) then                                   (* 327-332 *)
      Ok (reference, flush polygons polygon, [])
    else
      bind (line_parts new_format line) (fun parts =>
      match parts with                                                    (* 345-356 *)
      | [a; b; c] =>
          match fparse a, fparse b, fparse c with
          | Some x, Some y, Some z =>
              let v := if new_format then (x, y, z) else (y, x, z) in
              Ok (reference, polygons, v :: polygon)
          | _, _, _ => Err ValueError
          end
      | _ => Err Generic
      end)
  end.
Fixpoint read_lines (fparse : str -> option R) (new_format : bool) (st : tstate) (lines : list str) : res tstate :=
  match lines with
  | [] => Ok st
  | l :: rest => bind (read_line fparse new_format st l) (fun st => read_lines fparse new_format st rest)
  end.
(** factory.py:371-382: check, or rotate and try again *)
Fixpoint fix_loop (tries : nat) (p : list point) : res (list point * bool) :=
  match tries with
  | O => Ok (p, false)
  | S tries' =>
      match check_polygon p with
      | Ok _ => Ok (p, true)
      | Err ValueError => bind (rotate_polygon p) (fix_loop tries')
      | Err e => Err e
      end
  end.
Fixpoint fix_all (polygons : list (list point)) : res (list (list point) * bool) :=
  match polygons with
  | [] => Ok ([], true)
  | p :: rest =>
      bind (fix_loop (length p - 1) p) (fun r => let '(p', ok) := r in
      bind (fix_all rest) (fun rr => let '(rest', oks) := rr in Ok (p' :: rest', ok && oks)))
  end.
(** factory.py:432-439  validate_json, the part about polygons *)
Fixpoint check_all (polygons : list (list point)) : res unit :=
  match polygons with [] => Ok tt | p :: rest => bind (check_polygon p) (fun _ => check_all rest) end.
(** factory.py:264-397  text_to_json, from the lines of the file to the reference and the polygons *)
Definition text_to_json (fparse : str -> option R) (new_format : bool) (lines : list str) : res (str * list (list point)) :=
  bind (read_lines fparse new_format ([], [], []) lines) (fun st =>
  let '(reference, polygons, polygon) := st in
  let original := rev (flush polygons polygon) in
  bind (fix_all original) (fun r => let '(polygons, fixed) := r in
  let polygons := if fixed then polygons else original in
  bind (check_all polygons) (fun _ => Ok (reference, polygons)))).

(** ** Quadrilaterals *)
(** p[-k] *)
Definition nth_end {A} (p : list A) (k : nat) : option A := nth_error (rev p) (k - 1).
Definition make_point (o : option point) : res point :=
  match o with None => Err IndexError | Some (lon, lat, dep) => new_point lon lat dep end.
(** numpy.isclose(tops[0], tops, rtol=0, atol=DEPTH_TOL).all() *)
Definition level (a b : point) : bool := rleb (Rabs (depth_of a - depth_of b)) DEPTH_TOL.
(** factory.py:464-489: one quadrilateral of is_quadrupture_class; utils.py:55-60: is_quad makes points *)
Definition as_point (v : option vec) : res point :=
  match v with None => Err ValueError | Some v => let '(lon, lat, dep) := to_point v in new_point lon lat dep end.
Definition plane_quad (q : quad) : res (bool * quad) :=
  let p0 := ecef (q0 q) in let p1 := ecef (q1 q) in let p2 := ecef (q2 q) in let p3 := ecef (q3 q) in
  let '(on_plane, new_p2) := is_quad p0 p1 p2 p3 in
  bind (as_point (Some p0)) (fun a => bind (as_point (Some p1)) (fun b =>
  bind (as_point new_p2) (fun c => bind (as_point (Some p3)) (fun d => Ok (on_plane, mkquad a b c d))))).
Fixpoint quad_class_loop (p : list point) (ks : list nat) : res bool :=
  match ks with
  | [] => Ok true
  | k :: ks' =>
      bind (make_point (nth_error p k)) (fun a => bind (make_point (nth_error p (k + 1))) (fun b =>
      bind (make_point (nth_end p (k + 3))) (fun c => bind (make_point (nth_end p (k + 2))) (fun d =>
      bind (plane_quad (mkquad a b c d)) (fun t =>
      if negb (fst t) then Ok false else
      if negb (level a a && level a b) then Ok false else
      if negb (level c c && level c d) then Ok false else
      quad_class_loop p ks')))))
  end.
(** factory.py:442-491  is_quadrupture_class, for a MultiPolygon *)
Fixpoint is_quadrupture_class (polygons : list (list point)) : res bool :=
  match polygons with
  | [] => Ok true
  | p :: rest =>
      let n_pairs := Nat.div2 (length p - 1) in
      bind (quad_class_loop p (seq 0 (n_pairs - 1))) (fun b => if b then is_quadrupture_class rest else Ok false)
  end.

(** quad_rupture.py:50-62: the coordinate arrays; [None] is the not-a-number after each polygon *)
Definition arrays (polygons : list (list point)) : list (option point) :=
  flat_map (fun p => map Some (removelast p) ++ [None]) polygons.
(** quad_rupture.py:774-794  _fixStrikeDirection *)
Definition fix_strike_direction (q : quad) : quad :=
  let p0 := ecef (q0 q) in
  match norm (vcross (vsub (ecef (q2 q)) p0) (vsub (ecef (q1 q)) p0)) with
  | None => reverse_quad q
  | Some qnv =>
      let tmp := vadd p0 qnv in
      let '(tmplat, tmplon, tmpz) := ecef2latlon (vx tmp) (vy tmp) (vz tmp) in
      if rltb (tmpz - depth_of (q0 q)) (/ 10 ^ 6) then q else reverse_quad q
  end.
(** numpy.where(numpy.isnan(lon))[0] *)
Definition nan_at (a : list (option point)) : list nat :=
  map fst (filter (fun iv => match snd iv with None => true | Some _ => false end) (combine (seq 0 (length a)) a)).
(** a[lo:hi] *)
Definition slice {A} (lo hi : nat) (a : list A) : list A := firstn (hi - lo) (skipn lo a).
Definition the_point (o : option (option point)) : res point :=
  match o with
  | None => Err IndexError
  | Some None => Err ValueError                      (* not-a-number is refused by Point *)
  | Some (Some (lon, lat, dep)) => new_point lon lat dep
  end.
(** quad_rupture.py:836-865: the quadrilaterals of one group *)
Fixpoint group_quads (seg : list (option point)) (js : list nat) : res (list quad) :=
  match js with
  | [] => Ok []
  | j :: js' =>
      bind (the_point (nth_error seg j)) (fun P0 => bind (the_point (nth_error seg (j + 1))) (fun P1 =>
      bind (the_point (nth_end seg (j + 2))) (fun P2 => bind (the_point (nth_end seg (j + 1))) (fun P3 =>
      bind (plane_quad (mkquad P0 P1 P2 P3)) (fun t =>
      bind (group_quads seg js') (fun rest => Ok (fix_strike_direction (snd t) :: rest)))))))
  end.
(** int((npoints - 4) / 2) + 1, truncating towards zero *)
Definition quad_count (npoints : nat) : nat := Z.to_nat (Z.quot (Z.of_nat npoints - 4) 2 + 1).
Fixpoint all_groups (a : list (option point)) (group_start : nat) (ends : list nat) (groupind : nat) : res (list quad * list nat) :=
  match ends with
  | [] => Ok ([], [])
  | e :: ends' =>
      let seg := slice group_start e a in
      let nquads := quad_count (length seg) in
      bind (group_quads seg (seq 0 nquads)) (fun qs =>
      bind (all_groups a (e + 1) ends' (groupind + 1)) (fun r => Ok (qs ++ fst r, repeat groupind nquads ++ snd r)))
  end.
(** quad_rupture.py:796-865  _setQuadrilaterals: the quadrilaterals and the group of each *)
Definition set_quadrilaterals (polygons : list (list point)) : res (list quad * list nat) :=
  let a := arrays polygons in all_groups a 0 (nan_at a) 0.

(** quad_rupture.py:878-973  lons, lats, depths together: the outline of the group *)
Definition outline_of (quads : list quad) : list (option point) :=
  match quads with
  | [] => []
  | f :: _ =>
      let top := q0 f :: map q1 quads in
      let bot := q3 f :: map q2 quads in
      map Some (top ++ rev bot ++ [q0 f]) ++ [None]
  end.
Definition members (groups : list nat) (g : nat) (quads : list quad) : list quad :=
  map snd (filter (fun gq => (fst gq =? g)%nat) (combine groups quads)).
(** numpy.unique: the values in increasing order *)
Definition unique (l : list nat) : list nat :=
  match l with [] => [] | _ => filter (fun g => existsb (Nat.eqb g) l) (seq 0 (S (fold_right Nat.max O l))) end.
Definition outline (quads : list quad) (groups : list nat) : list (option point) :=
  flat_map (fun g => outline_of (members groups g quads)) (unique groups).

(** ** Edges *)
(** An EdgeRupture: the top and the bottom edge and the group of each pair of vertices. *)
Record edges := mkedges { e_top : list point; e_bot : list point; e_group : list nat }.
(** edge_rupture.py:46-80  EdgeRupture.__init__ *)
Fixpoint edges_from (polygons : list (list point)) (g_ind : nat) : edges :=
  match polygons with
  | [] => mkedges [] [] []
  | p :: rest =>
      let n_pairs := Nat.div2 (length p - 1) in
      let body := removelast p in
      let r := edges_from rest (g_ind + 1) in
      mkedges (firstn n_pairs body ++ e_top r) (rev (skipn n_pairs body) ++ e_bot r) (repeat g_ind n_pairs ++ e_group r)
  end.
Definition edge_init (polygons : list (list point)) : edges := edges_from polygons 0.
(** numpy.where(g == group_index)[0] *)
Definition where_group (g : nat) (groups : list nat) : list nat :=
  map fst (filter (fun ig => (snd ig =? g)%nat) (combine (seq 0 (length groups)) groups)).
(** a[ind] *)
Fixpoint take {A} (a : list A) (ind : list nat) : res (list A) :=
  match ind with
  | [] => Ok []
  | i :: ind' => match nth_error a i with None => Err IndexError | Some x => bind (take a ind') (fun r => Ok (x :: r)) end
  end.
(** edge_rupture.py:139-152  fromArrays: one polygon per group *)
Fixpoint group_polygons (top bot : list point) (group_index : list nat) (gs : list nat) : res (list (list point)) :=
  match gs with
  | [] => Ok []
  | g :: gs' =>
      let ind := where_group g group_index in
      bind (take top ind) (fun t => bind (take bot ind) (fun b =>
      match t with
      | [] => Err IndexError
      | f :: _ => bind (group_polygons top bot group_index gs') (fun r => Ok ((t ++ rev b ++ [f]) :: r))
      end))
  end.
Definition from_arrays_polygons (top bot : list point) (group_index : option (list nat)) : res (list (list point)) :=
  let gi := match group_index with Some g => g | None => repeat O (length top) end in
  group_polygons top bot gi (unique gi).
(** edge_rupture.py:106-181  fromArrays *)
Definition from_arrays (top bot : list point) (group_index : option (list nat)) : res edges :=
  bind (from_arrays_polygons top bot group_index) (fun polys => Ok (edge_init polys)).
(** edge_rupture.py:489-520  getQuadrilaterals: the index is j, not ind[j] *)
Fixpoint edge_quads (e : edges) (js : list nat) : res (list quad) :=
  match js with
  | [] => Ok []
  | j :: js' =>
      bind (make_point (nth_error (e_top e) j)) (fun P0 => bind (make_point (nth_error (e_top e) (j + 1))) (fun P1 =>
      bind (make_point (nth_error (e_bot e) (j + 1))) (fun P2 => bind (make_point (nth_error (e_bot e) j)) (fun P3 =>
      bind (edge_quads e js') (fun r => Ok (mkquad P0 P1 P2 P3 :: r))))))
  end.
Fixpoint edge_quads_groups (e : edges) (gs : list nat) : res (list quad) :=
  match gs with
  | [] => Ok []
  | g :: gs' =>
      let nq := (length (where_group g (e_group e)) - 1)%nat in
      bind (edge_quads e (seq 0 nq)) (fun qs => bind (edge_quads_groups e gs') (fun r => Ok (qs ++ r)))
  end.
Definition edge_get_quadrilaterals (e : edges) : res (list quad) := edge_quads_groups e (unique (e_group e)).
