(** Model of /repo/impactutils/rupture/gc2.py over exact reals, at one site.  The centre of the map
    projection, which depends on all the sites and on the rupture, is a parameter.  [None] is
    not-a-number; group numbers are naturals and positions are not cut to sixteen bits. *)
From Coq Require Import ZArith Reals String Ascii Bool List.
From Verif Require Import PyBase PyStr VecModel GeoModel RuptModel PolyModel SizeModel.
Import ListNotations.
Open Scope R_scope.

(** ** Coordinates along and across a segment *)
(** Point.x, Point.y under the projection *)
Definition on_map (c : R * R) (p : point) : res (R * R) := let '(lon, lat, _) := p in ortho_forward (fst c) (snd c) lon lat.
(** gc2.py:279-324  __calc_u_i *)
Definition calc_u (p0 p1 s : R * R) : option R :=
  option_map (fun h => vx h * (fst s - fst p0) + vy h * (snd s - snd p0)) (norm (mkvec (fst p1 - fst p0) (snd p1 - snd p0) 0)).
(** gc2.py:327-371  __calc_t_i *)
Definition calc_t (p0 p1 s : R * R) : option R :=
  option_map (fun h => vx h * (fst s - fst p0) + vy h * (snd s - snd p0)) (norm (mkvec (snd p1 - snd p0) (- (fst p1 - fst p0)) 0)).

(** A segment as seen from the site: t, u, the length and where the segment begins on the U axis. *)
Record seg := mkseg { s_t : R; s_u : R; s_l : R; s_off : R }.
(** gc2.py:204-218: the three cases *)
Definition on_segment (t u l : R) : bool := reqd t 0 && rleb 0 u && rleb u l.
Definition weight (t u l : R) : R :=
  if negb (reqd t 0) then (1 / t) * (atan ((l - u) / t) - atan (- u / t))
  else if rltb u 0 || rltb l u then 1 / (u - l) - 1 / u
  else 0.
(** gc2.py:204-242: totweight, GC2T and GC2U after one more segment *)
Definition sums := (R * R * R)%type.
Definition add_segment (a : sums) (s : seg) : sums :=
  let '(tot, T, U) := a in
  let tot := if on_segment (s_t s) (s_u s) (s_l s) then 1 else tot in
  let w := weight (s_t s) (s_u s) (s_l s) in
  (tot + w, T + w * s_t s, U + w * (s_u s + s_off s)).

(** ** Several traces *)
(** gc2.py:79-84: the first and the last quadrilateral of a group *)
Definition iq0 (groups : list nat) (k : nat) : nat := hd O (where_group k groups).
Definition iq1 (groups : list nat) (k : nat) : nat := last (where_group k groups) O.
(** itertools.combinations(l, 2) *)
Fixpoint combinations2 {A} (l : list A) : list (A * A) :=
  match l with [] => [] | x :: r => map (fun y => (x, y)) r ++ combinations2 r end.
(** gc2.py:91-92 *)
Definition it_seg (uind : list nat) : list (nat * nat * (bool * bool)) :=
  flat_map (fun st => map (fun f => (st, f)) [(false, false); (false, true); (true, false); (true, true)]) (combinations2 uind).
Definition surface_distance (P0 P1 : point) : R :=
  let '(lon0, lat0, _) := P0 in let '(lon1, lat1, _) := P1 in geo_distance lon0 lat0 0 lon1 lat1 0.
(** gc2.py:99-110: the two ends looked at *)
Definition ends_at (quads : list quad) (groups : list nat) (k : nat * nat * (bool * bool)) : res (point * point) :=
  let '((s0, s1), (f0, f1)) := k in
  bind (if f0 then bind (get quads (iq1 groups s0)) (fun q => Ok (q1 q)) else bind (get quads (iq0 groups s0)) (fun q => Ok (q0 q))) (fun P0 =>
  bind (if f1 then bind (get quads (iq0 groups s1)) (fun q => Ok (q1 q)) else bind (get quads (iq1 groups s1)) (fun q => Ok (q0 q))) (fun P1 =>
  Ok (P0, P1))).
(** gc2.py:96-117 *)
Fixpoint farthest (quads : list quad) (groups : list nat) (ks : list (nat * nat * (bool * bool))) (dist_save : R) (A : option (point * point)) : res (option (point * point)) :=
  match ks with
  | [] => Ok A
  | k :: rest =>
      bind (ends_at quads groups k) (fun PP =>
      let dist := surface_distance (fst PP) (snd PP) in
      if rltb dist_save dist then farthest quads groups rest dist (Some PP) else farthest quads groups rest dist_save A)
  end.
(** gc2.py:138-145: from the first to the last point of every trace, at the surface *)
Fixpoint trace_vectors (quads : list quad) (groups : list nat) (js : list nat) : res (list vec) :=
  match js with
  | [] => Ok []
  | j :: rest =>
      bind (get quads (iq0 groups j)) (fun f => bind (get quads (iq1 groups j)) (fun l =>
      bind (trace_vectors quads groups rest) (fun r => Ok (vsub (ecef (at_surface (q1 l))) (ecef (at_surface (q0 f))) :: r))))
  end.
(** gc2.py:149-155: the sum of the traces, the discordant ones reversed *)
Definition vsum (l : list vec) : vec := fold_left vadd l (mkvec 0 0 0).
Definition discordancy (e : list R) : list R := let E := rsum e in map (fun a => sign a * sign E) e.
(** What the loop leaves behind: p_origin, ahat, E and dc.  Without ahat nothing counts as discordant. *)
Record nominal := mknominal { n_origin : vec; n_ahat : option vec; n_E : R; n_dc : list R }.
(** gc2.py:126-161; [None]: out of fuel *)
Fixpoint orientation (fuel : nat) (bs : list vec) (A0 A1 : point) : option nominal :=
  match fuel with
  | O => None
  | S fuel =>
      let a0 := ecef (at_surface A0) in let a1 := ecef (at_surface A1) in
      match norm (vsub a1 a0) with
      | None => Some (mknominal a0 None 0 (map (fun _ => 0) bs))
      | Some ahat =>
          let e := map (vdot ahat) bs in
          let dc := discordancy e in
          let found := mknominal a0 (Some ahat) (rsum e) dc in
          match norm (vsum (map (fun bd => vscale (snd bd) (fst bd)) (combine bs dc))) with
          | None => Some found
          | Some bhat => if rltb (vdot bhat ahat) 0 then orientation fuel bs A1 A0 else Some found
          end
      end
  end.
(** gc2.py:168-171 *)
Definition discordant (dc : list R) (g : nat) : bool := rltb (nth g dc 0) 0.
Definition flip_quads (dc : list R) (groups : list nat) (quads : list quad) : list quad :=
  map (fun gq => if discordant dc (fst gq) then reverse_quad (snd gq) else snd gq) (combine groups quads).
(** gc2.py:173-179: the position from which position [i] is filled *)
Definition find_pos (i : nat) (l : list (nat * nat)) : nat := match find (fun p => (fst p =? i)%nat) l with Some p => snd p | None => i end.
Definition mirrored (dc : list R) (groups : list nat) (ig : nat * nat) : nat :=
  let '(i, g) := ig in
  if discordant dc g then let qsel := where_group g groups in find_pos i (combine qsel (rev qsel)) else i.
(** gc2.py:181-183 *)
Definition rearrange (dc : list R) (groups : list nat) (quads : list quad) : res (list quad) :=
  take (flip_quads dc groups quads) (map (mirrored dc groups) (combine (seq 0 (length groups)) groups)).

(** ** The sums over the segments *)
(** gc2.py:231-232: the lengths of the earlier segments of the same trace *)
Definition earlier (groups : list nat) (ls : list R) (i : nat) : R :=
  rsum (map snd (filter (fun gl => (fst gl =? nth i groups O)%nat) (firstn i (combine groups ls)))).
(** gc2.py:234-241: the place of the i-th segment on the U axis *)
Definition offset (n : nominal) (groups : list nat) (quads : list quad) (i : nat) : res R :=
  bind (get quads (iq0 groups (nth i groups O))) (fun q =>
  match n_ahat n with
  | None => Err NotModelled
  | Some ahat => Ok (earlier groups (map q_length quads) i + vdot (vsub (ecef (q0 q)) (n_origin n)) (vscale (sign (n_E n)) ahat) / 1000)
  end).
(** gc2.py:187, 244: with one trace it is the sum of the earlier lengths *)
Definition plain_offset (quads : list quad) (i : nat) : res R := Ok (rsum (map q_length (firstn i quads))).
(** gc2.py:190-198: t, u and the length of one segment; [None]: not a number *)
Definition segment_of (c : R * R) (lon lat : R) (q : quad) : res (option (R * R * R)) :=
  bind (on_map c (q0 q)) (fun p0 => bind (on_map c (q1 q)) (fun p1 => bind (on_map c (lon, lat, 0)) (fun s =>
  Ok (match calc_t p0 p1 s, calc_u p0 p1 s with Some t, Some u => Some (t, u, q_length q) | _, _ => None end)))).
Fixpoint segments_of (c : R * R) (lon lat : R) (offs : nat -> res R) (quads : list quad) (i : nat) : res (list (option seg)) :=
  match quads with
  | [] => Ok []
  | q :: rest =>
      bind (segment_of c lon lat q) (fun g => bind (offs i) (fun off => bind (segments_of c lon lat offs rest (S i)) (fun r =>
      Ok (option_map (fun x => let '(t, u, l) := x in mkseg t u l off) g :: r))))
  end.
Fixpoint all_some {A} (l : list (option A)) : option (list A) :=
  match l with
  | [] => Some []
  | None :: _ => None
  | Some x :: r => option_map (cons x) (all_some r)
  end.
(** gc2.py:246-276; the results T, U, rx, ry and ry0 *)
Record gc2 := mkgc2 { g_T : option R; g_U : option R; g_rx : option R; g_ry : option R; g_ry0 : R }.
Definition ry0_of (U : option R) (s : R) : R :=
  match U with
  | None => 0
  | Some U =>
      let r := if rltb U 0 then Rabs U else 0 in
      if rltb s U then U - s else r
  end.
Definition finish (segs : list (option seg)) (total : R) (far : list seg -> R) : gc2 :=
  match all_some segs with
  | None => mkgc2 None None None None 0
  | Some l =>
      let '(tot, T, U) := fold_left add_segment l (0, 0, 0) in
      let T := if reqd tot 0 then None else Some (T / tot) in
      let U := if reqd tot 0 then None else Some (U / tot) in
      mkgc2 T U T (option_map (fun U => U - total / 2) U) (ry0_of U (far l))
  end.
(** gc2.py:17-276  _computeGC2 *)
Definition sum_up (c : R * R) (lon lat : R) (offs : nat -> res R) (quads : list quad) (far : R -> list seg -> R) : res gc2 :=
  let total := rsum (map q_length quads) in
  bind (segments_of c lon lat offs quads 0) (fun segs => Ok (finish segs total (far total))).
Definition far_end (total : R) (l : list seg) : R := match rev l with s :: _ => s_off s + s_l s | [] => total end.
Definition compute_gc2 (fuel : nat) (c : R * R) (quads : list quad) (groups : list nat) (lon lat : R) : option (res gc2) :=
  let uind := unique groups in
  let n := length uind in
  if (n =? 0)%nat then Some (match quads with [] => Ok (finish [] 0 (fun _ => 0)) | _ => Err Unbound end)
  else if (n =? 1)%nat then Some (sum_up c lon lat (plain_offset quads) quads (fun total _ => total))
  else if negb (forallb (fun k => (k <? n)%nat) uind) then Some (Err IndexError)
  else
    match farthest quads groups (it_seg uind) 0 None with
    | Err e => Some (Err e)
    | Ok None => Some (Err Unbound)
    | Ok (Some (A0, A1)) =>
        match trace_vectors quads groups uind with
        | Err e => Some (Err e)
        | Ok bs =>
            match orientation fuel bs A0 A1 with
            | None => None
            | Some nom =>
                if negb (length groups =? length quads)%nat then Some (Err IndexError)
                else Some (bind (rearrange (n_dc nom) groups quads) (fun quads => sum_up c lon lat (offset nom groups quads) quads far_end))
            end
        end
    end.
