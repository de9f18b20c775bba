(** Model of the constructors fromVertices, fromTrace and fromOrientation of
    /repo/impactutils/rupture/quad_rupture.py, over exact reals.  The middle of
    the projection (openquake's get_middle_point) and openquake's point_at are
    parameters; group numbers are natural numbers; the metadata is left out. *)
From Coq Require Import ZArith Reals String Ascii Bool List.
From Verif Require Import PyBase PyStr VecModel GeoModel RuptModel PolyModel.
Import ListNotations.
Open Scope R_scope.

(** The outcome of a constructor; [Inconsistent] is ConsistentLengthError. *)
Inductive outcome (A : Type) : Type := Made (a : A) | Inconsistent | Raised (e : exn).
Arguments Made {A}. Arguments Inconsistent {A}. Arguments Raised {A}.
Definition finish {A} (r : res A) : outcome A := match r with Ok a => Made a | Err e => Raised e end.
(** len(a) == len(b) == ... *)
Fixpoint chain_eq (l : list nat) : bool :=
  match l with a :: ((b :: _) as t) => (a =? b)%nat && chain_eq t | _ => true end.
(** The i-th triples of three arrays *)
Fixpoint zip3 (xs ys zs : list R) : list point :=
  match xs, ys, zs with x :: xs', y :: ys', z :: zs' => (x, y, z) :: zip3 xs' ys' zs' | _, _, _ => [] end.

(** quad_rupture.py:612-646, 328-364: one polygon per group; of the first and last corners only
    those of the first quadrilateral of the group are used *)
Fixpoint quad_polygons (p0 p1 p2 p3 : list point) (group_index : list nat) (gs : list nat) : res (list (list point)) :=
  match gs with
  | [] => Ok []
  | g :: gs' =>
      let ind := where_group g group_index in
      match ind with
      | [] => Err IndexError
      | first :: _ =>
          match nth_error p0 first, nth_error p3 first with
          | Some a, Some d =>
              bind (take p1 ind) (fun b => bind (take p2 ind) (fun c =>
              bind (quad_polygons p0 p1 p2 p3 group_index gs') (fun r => Ok ((a :: b ++ rev c ++ [d; a]) :: r))))
          | _, _ => Err IndexError
          end
      end
  end.
Definition grouped (p0 p1 p2 p3 : list point) (group_index : list nat) : res (list quad * list nat) :=
  bind (quad_polygons p0 p1 p2 p3 group_index (unique group_index)) set_quadrilaterals.

(** quad_rupture.py:532-672  fromVertices: the quadrilaterals and the group of each *)
Definition from_vertices (xp0 yp0 zp0 xp1 yp1 zp1 xp2 yp2 zp2 xp3 yp3 zp3 : list R) (group_index : option (list nat)) : outcome (list quad * list nat) :=
  if chain_eq (map (@length R) [xp0; yp0; zp0; xp1; yp1; zp1; xp2; yp2; zp2; xp3; yp3; zp3]) then
    let nq := length xp0 in
    let go gi := finish (grouped (zip3 xp0 yp0 zp0) (zip3 xp1 yp1 zp1) (zip3 xp2 yp2 zp2) (zip3 xp3 yp3 zp3) gi) in
    match group_index with
    | Some gi => if negb (length gi =? nq)%nat then Inconsistent else go gi
    | None => go (seq 0 nq)
    end
  else Inconsistent.

(** A point turned by [theta] *)
Definition turn (theta : R) (p : R * R) : R * R := (cos theta * fst p - sin theta * snd p, sin theta * fst p + cos theta * snd p).
(** utils.py:229-246 in openquake: reversing the projection; outside the disc the result is not a number *)
Definition unproject (c : R * R) (p : R * R) : res (R * R) :=
  if rltb (EARTH_RADIUS * EARTH_RADIUS) (fst p ^ 2 + snd p ^ 2) then Err NotModelled else Ok (ortho_reverse (fst c) (snd c) (fst p) (snd p)).
(** quad_rupture.py:275-325: the lower corners p2 and p3 and their depth *)
Definition lower (c : R * R) (x0 y0 x1 y1 z width dip : R) (strike : option R) : res (point * point) :=
  bind (ortho_forward (fst c) (snd c) x0 y0) (fun p0 =>
  bind (ortho_forward (fst c) (snd c) x1 y1) (fun p1 =>
  let theta := match strike with None => arctan2 (fst p1 - fst p0) (snd p1 - snd p0) | Some s => radians s end in
  let p0p := turn theta p0 in let p1p := turn theta p1 in
  let dz := sin dip * width in let dx := cos dip * width in
  let p3p := (fst p0p + dx, snd p0p) in let p2p := (fst p1p + dx, snd p1p) in
  bind (unproject c (turn (- theta) p3p)) (fun l3 =>
  bind (unproject c (turn (- theta) p2p)) (fun l2 =>
  Ok ((fst l2, snd l2, z + dz), (fst l3, snd l3, z + dz)))))).
(** strike, strike[0] or strike[i] *)
Definition strike_at (strike : option (list R)) (i : nat) : option R :=
  match strike with
  | None => None
  | Some [s] => Some s
  | Some l => nth_error l i
  end.
Fixpoint lowers (c : R * R) (xp0 yp0 xp1 yp1 zp widths dips : list R) (strike : option (list R)) (i : nat) : res (list (point * point)) :=
  match xp0, yp0, xp1, yp1, zp, widths, dips with
  | x0 :: xp0', y0 :: yp0', x1 :: xp1', y1 :: yp1', z :: zp', w :: widths', d :: dips' =>
      bind (lower c x0 y0 x1 y1 z w (radians d) (strike_at strike i)) (fun l =>
      bind (lowers c xp0' yp0' xp1' yp1' zp' widths' dips' strike (S i)) (fun r => Ok (l :: r)))
  | _, _, _, _, _, _, _ => Ok []
  end.
Definition rmin2 (a b : list R) : option R := rmin_list (a ++ b).
Definition rmax2 (a b : list R) : option R := rmax_list (a ++ b).

Section Trace.
  (** openquake geo/utils.py get_middle_point(west, north, east, south) *)
  Variable middle : R -> R -> R -> R -> R * R.
  (** openquake geo/geodetic.py point_at(lon, lat, azimuth, distance) *)
  Variable point_at : R -> R -> R -> R -> R * R.

  (** quad_rupture.py:198-392  fromTrace *)
  Definition from_trace (xp0 yp0 xp1 yp1 zp widths dips : list R) (strike : option (list R)) (group_index : option (list nat)) : outcome (list quad * list nat) :=
    if chain_eq (map (@length R) [xp0; yp0; xp1; yp1; zp; dips; widths]) then
      let n := length xp0 in
      let wrong := match strike with None => false | Some s => negb (n =? length s)%nat && negb (length s =? 1)%nat end in
      if wrong then Raised TypeError else
      let gi := match group_index with None => seq 0 n | Some gi => gi end in
      match rmin2 xp0 xp1, rmax2 xp0 xp1, rmin2 yp0 yp1, rmax2 yp0 yp1 with
      | Some west, Some east, Some south, Some north =>
          let c := middle west north east south in
          finish (bind (lowers c xp0 yp0 xp1 yp1 zp widths dips strike 0) (fun l =>
                  grouped (zip3 xp0 yp0 zp) (zip3 xp1 yp1 zp) (map fst l) (map snd l) gi))
      | _, _, _, _ => Raised ValueError                                                  (* min of nothing *)
      end
    else Inconsistent.

  (** quad_rupture.py:491-527: where the top edge starts and ends, and its depth *)
  Definition top_of (px py pz dx dy length strike dip : R) : R * R * (R * R) * R :=
    let theta := degrees (arctan2 (dy * cos (radians dip)) dx) in
    let dist := sqrt (dx ^ 2 + (dy * cos (radians dip)) ^ 2) in
    let p1 := point_at px py (strike + 180 + theta) dist in
    let p2 := point_at (fst p1) (snd p1) strike length in
    (p1, p2, pz - Rabs (dy * sin (radians dip))).
  Fixpoint tops (px py pz dx dy lengths strike dip : list R) : list (R * R * (R * R) * R) :=
    match px, py, pz, dx, dy, lengths, strike, dip with
    | x :: px', y :: py', z :: pz', a :: dx', b :: dy', l :: lengths', s :: strike', d :: dip' =>
        top_of x y z a b l s d :: tops px' py' pz' dx' dy' lengths' strike' dip'
    | _, _, _, _, _, _, _, _ => []
    end.
  (** quad_rupture.py:424-530  fromOrientation *)
  Definition from_orientation (px py pz dx dy lengths widths strike dip : list R) : outcome (list quad * list nat) :=
    if chain_eq (map (@length R) [px; py; pz; dx; dy; lengths; widths; strike; dip]) then
      let t := tops px py pz dx dy lengths strike dip in
      from_trace (map (fun e => fst (fst (fst e))) t) (map (fun e => snd (fst (fst e))) t)
                 (map (fun e => fst (snd (fst e))) t) (map (fun e => snd (snd (fst e))) t) (map snd t) widths dip (Some strike) None
    else Inconsistent.
End Trace.
