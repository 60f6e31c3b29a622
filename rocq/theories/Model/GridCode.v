(** Code for the static angular grids, files quadratures/s2/<family>/<family>_<n>.hpp.

    Such a file is two arrays of decimal literals. The Lebedev-Laikov, Delley and Ahrens-Beylkin
    files are concatenations of blocks: the points of a block are the images of one point (of five
    points, for the 60-point blocks) under sign changes and permutations of the coordinates, always in
    the same order, with one common weight. The model stores each block once and expands it again in
    the order of the file; tools/gen_grids.py checks that the expansion gives back every literal. *)
From Coq Require Import ZArith List.
From Verif Require Import Base.Scalar Model.S2.
Import ListNotations.

(** A decimal literal m * 10^-e, possibly preceded by a minus sign (m < 0). *)
Definition lit : Type := (Z * Z)%type.
(** The three literals of a point, e.g. lebedev_laikov/lebedev_laikov_6.hpp:14. *)
Definition lit3 : Type := (lit * lit * lit)%type.
(** The literal 0.0. *)
Definition o : lit := (0, 0)%Z.
(** The literal with a minus sign in front, e.g. lebedev_laikov/lebedev_laikov_6.hpp:15. *)
Definition lneg (d : lit) : lit := (- fst d, snd d)%Z.
Declare Scope lit_scope.
Notation "- d" := (lneg d) : lit_scope.
Local Open Scope lit_scope.

(** Order of the points of a block, e.g. lebedev_laikov/lebedev_laikov_6.hpp (all 6 points). *)
Definition ll6 (a : lit) : list lit3 :=
  [(a,o,o); (-a,o,o); (o,a,o); (o,-a,o); (o,o,a); (o,o,-a)].

(** Order of the points of a block, e.g. the last 8 points of lebedev_laikov/lebedev_laikov_14.hpp. *)
Definition ll8 (a : lit) : list lit3 :=
  [(a,a,a); (-a,a,a); (a,-a,a); (-a,-a,a); (a,a,-a); (-a,a,-a); (a,-a,-a); (-a,-a,-a)].

(** Order of the points of a block, e.g. points 7-18 of lebedev_laikov/lebedev_laikov_26.hpp. *)
Definition ll12 (a : lit) : list lit3 :=
  [(o,a,a); (o,-a,a); (o,a,-a); (o,-a,-a); (a,o,a); (-a,o,a); (a,o,-a); (-a,o,-a); (a,a,o);
   (-a,a,o); (a,-a,o); (-a,-a,o)].

(** Order of the points of a block, e.g. points 27-50 of lebedev_laikov/lebedev_laikov_50.hpp. *)
Definition ll24 (a b : lit) : list lit3 :=
  [(a,a,b); (-a,a,b); (a,-a,b); (-a,-a,b); (a,a,-b); (-a,a,-b); (a,-a,-b); (-a,-a,-b); (a,b,a);
   (-a,b,a); (a,-b,a); (-a,-b,a); (a,b,-a); (-a,b,-a); (a,-b,-a); (-a,-b,-a); (b,a,a);
   (-b,a,a); (b,-a,a); (-b,-a,a); (b,a,-a); (-b,a,-a); (b,-a,-a); (-b,-a,-a)].

(** Order of the points of a block, e.g. the last 24 points of lebedev_laikov/lebedev_laikov_38.hpp. *)
Definition ll24o (a b : lit) : list lit3 :=
  [(a,b,o); (-a,b,o); (a,-b,o); (-a,-b,o); (b,a,o); (-b,a,o); (b,-a,o); (-b,-a,o); (a,o,b);
   (-a,o,b); (a,o,-b); (-a,o,-b); (b,o,a); (-b,o,a); (b,o,-a); (-b,o,-a); (o,a,b); (o,-a,b);
   (o,a,-b); (o,-a,-b); (o,b,a); (o,-b,a); (o,b,-a); (o,-b,-a)].

(** Order of the points of a block, e.g. the last 48 points of lebedev_laikov/lebedev_laikov_146.hpp. *)
Definition ll48 (a b c : lit) : list lit3 :=
  [(a,b,c); (-a,b,c); (a,-b,c); (-a,-b,c); (a,b,-c); (-a,b,-c); (a,-b,-c); (-a,-b,-c); (a,c,b);
   (-a,c,b); (a,-c,b); (-a,-c,b); (a,c,-b); (-a,c,-b); (a,-c,-b); (-a,-c,-b); (b,a,c);
   (-b,a,c); (b,-a,c); (-b,-a,c); (b,a,-c); (-b,a,-c); (b,-a,-c); (-b,-a,-c); (b,c,a);
   (-b,c,a); (b,-c,a); (-b,-c,a); (b,c,-a); (-b,c,-a); (b,-c,-a); (-b,-c,-a); (c,a,b);
   (-c,a,b); (c,-a,b); (-c,-a,b); (c,a,-b); (-c,a,-b); (c,-a,-b); (-c,-a,-b); (c,b,a);
   (-c,b,a); (c,-b,a); (-c,-b,a); (c,b,-a); (-c,b,-a); (c,-b,-a); (-c,-b,-a)].

(** Order of the points of a block, e.g. points 1-6 of delley/delley_14.hpp. *)
Definition de6 (a : lit) : list lit3 :=
  [(a,o,o); (-a,o,o); (o,a,o); (o,-a,o); (o,o,a); (o,o,-a)].

(** Order of the points of a block, e.g. points 7-14 of delley/delley_14.hpp. *)
Definition de8 (a : lit) : list lit3 :=
  [(a,a,a); (a,a,-a); (a,-a,a); (a,-a,-a); (-a,a,a); (-a,a,-a); (-a,-a,a); (-a,-a,-a)].

(** Order of the points of a block, e.g. 12-point blocks of delley/delley_26.hpp. *)
Definition de12 (a : lit) : list lit3 :=
  [(a,a,o); (o,a,a); (a,o,a); (a,-a,o); (o,a,-a); (-a,o,a); (-a,a,o); (o,-a,a); (a,o,-a);
   (-a,-a,o); (o,-a,-a); (-a,o,-a)].

(** Order of the points of a block, e.g. 24-point blocks of delley/delley_50.hpp. *)
Definition de24 (a b : lit) : list lit3 :=
  [(a,b,b); (b,a,b); (b,b,a); (a,b,-b); (b,a,-b); (b,b,-a); (a,-b,b); (b,-a,b); (b,-b,a);
   (a,-b,-b); (b,-a,-b); (b,-b,-a); (-a,b,b); (-b,a,b); (-b,b,a); (-a,b,-b); (-b,a,-b);
   (-b,b,-a); (-a,-b,b); (-b,-a,b); (-b,-b,a); (-a,-b,-b); (-b,-a,-b); (-b,-b,-a)].

(** Order of the points of a block, e.g. 24-point blocks with a zero of delley/delley_110.hpp. *)
Definition de24o (a b : lit) : list lit3 :=
  [(o,a,b); (b,o,a); (a,b,o); (o,b,a); (a,o,b); (b,a,o); (o,a,-b); (-b,o,a); (a,-b,o);
   (o,-b,a); (a,o,-b); (-b,a,o); (o,-a,b); (b,o,-a); (-a,b,o); (o,b,-a); (-a,o,b); (b,-a,o);
   (o,-a,-b); (-b,o,-a); (-a,-b,o); (o,-b,-a); (-a,o,-b); (-b,-a,o)].

(** Order of the points of a block, e.g. 48-point blocks of delley/delley_194.hpp. *)
Definition de48 (a b c : lit) : list lit3 :=
  [(a,b,c); (a,c,b); (c,a,b); (b,a,c); (b,c,a); (c,b,a); (a,b,-c); (a,-c,b); (-c,a,b);
   (b,a,-c); (b,-c,a); (-c,b,a); (a,-b,c); (a,c,-b); (c,a,-b); (-b,a,c); (-b,c,a); (c,-b,a);
   (a,-b,-c); (a,-c,-b); (-c,a,-b); (-b,a,-c); (-b,-c,a); (-c,-b,a); (-a,b,c); (-a,c,b);
   (c,-a,b); (b,-a,c); (b,c,-a); (c,b,-a); (-a,b,-c); (-a,-c,b); (-c,-a,b); (b,-a,-c);
   (b,-c,-a); (-c,b,-a); (-a,-b,c); (-a,c,-b); (c,-a,-b); (-b,-a,c); (-b,c,-a); (c,-b,-a);
   (-a,-b,-c); (-a,-c,-b); (-c,-a,-b); (-b,-a,-c); (-b,-c,-a); (-c,-b,-a)].

(** Order of the first 12 points of every Ahrens-Beylkin file, e.g. ahrens_beylkin/ahrens_beylkin_72.hpp:14-25. *)
Definition ab12 (a b : lit) : list lit3 :=
  [(o,-a,b); (o,-a,-b); (b,o,-a); (b,o,a); (-a,b,o); (-a,-b,o); (o,a,-b); (o,a,b); (-b,o,a);
   (-b,o,-a); (a,-b,o); (a,b,o)].

(** Order of the points of a 60-point block: five points and their images under even sign changes
    and cyclic permutations, e.g. ahrens_beylkin/ahrens_beylkin_72.hpp:26-85. *)
Definition ab60 (x1 y1 z1 x2 y2 z2 x3 y3 z3 x4 y4 z4 x5 y5 z5 : lit) : list lit3 :=
  [(x1,y1,z1); (y1,-z1,-x1); (x2,y2,z2); (x3,y3,z3); (x1,-y1,-z1); (-y1,-z1,x1); (x4,y4,z4);
   (z3,x3,y3); (-y3,z3,-x3); (z4,-x4,-y4); (-y2,-z2,x2); (x5,y5,z5); (-z2,x2,-y2);
   (-y5,z5,-x5); (-y4,-z4,x4); (-z5,-x5,y5); (x3,-y3,-z3); (-z1,-x1,y1); (-z1,x1,-y1);
   (x2,-y2,-z2); (z1,x1,y1); (y3,z3,x3); (-z4,-x4,y4); (-x5,y5,-z5); (-z3,-x3,y3);
   (z2,-x2,-y2); (-x4,-y4,z4); (y5,-z5,-x5); (y2,-z2,-x2); (-x1,-y1,z1); (y1,z1,x1);
   (-z5,x5,-y5); (-y4,z4,-x4); (-x1,y1,-z1); (-y1,z1,-x1); (z1,-x1,-y1); (-z4,x4,-y4);
   (y2,z2,x2); (-x5,-y5,z5); (y3,-z3,-x3); (z3,-x3,-y3); (x4,-y4,-z4); (-x3,y3,-z3);
   (y4,z4,x4); (z5,x5,y5); (-x2,y2,-z2); (x5,-y5,-z5); (-y2,z2,-x2); (y5,z5,x5); (-z3,x3,-y3);
   (y4,-z4,-x4); (-x3,-y3,z3); (z4,x4,y4); (-y3,-z3,x3); (z2,x2,y2); (-x4,y4,-z4);
   (-x2,-y2,z2); (z5,-x5,-y5); (-y5,-z5,x5); (-z2,-x2,y2)].

Local Close Scope lit_scope.

(** A block of points with its parameters: six kinds occur in the Lebedev-Laikov files, six in the
    Delley files, two in the Ahrens-Beylkin files (e.g. ahrens_beylkin/ahrens_beylkin_72.hpp:14-85). *)
Inductive block : Type :=
| LL6 (a : lit) | LL8 (a : lit) | LL12 (a : lit) | LL24 (a b : lit) | LL24o (a b : lit) | LL48 (a b c : lit)
| DE6 (a : lit) | DE8 (a : lit) | DE12 (a : lit) | DE24 (a b : lit) | DE24o (a b : lit) | DE48 (a b c : lit)
| AB12 (a b : lit) | AB60 (x1 y1 z1 x2 y2 z2 x3 y3 z3 x4 y4 z4 x5 y5 z5 : lit).

(** The points of a block in file order (the definitions above, which cite the files, e.g.
    ahrens_beylkin/ahrens_beylkin_72.hpp:26-85). *)
Definition block_points (b : block) : list lit3 :=
  match b with
  | LL6 a => ll6 a | LL8 a => ll8 a | LL12 a => ll12 a
  | LL24 a b => ll24 a b | LL24o a b => ll24o a b | LL48 a b c => ll48 a b c
  | DE6 a => de6 a | DE8 a => de8 a | DE12 a => de12 a
  | DE24 a b => de24 a b | DE24o a b => de24o a b | DE48 a b c => de48 a b c
  | AB12 a b => ab12 a b
  | AB60 x1 y1 z1 x2 y2 z2 x3 y3 z3 x4 y4 z4 x5 y5 z5 => ab60 x1 y1 z1 x2 y2 z2 x3 y3 z3 x4 y4 z4 x5 y5 z5
  end.

(** A file: blocks with their weight literal, e.g. lebedev_laikov/lebedev_laikov_14.hpp:13-47. *)
Definition coded : Type := list (block * lit).
(** The [points] array of the file, e.g. lebedev_laikov/lebedev_laikov_14.hpp:13-28. *)
Definition coded_points (g : coded) : list lit3 := flat_map (fun bw => block_points (fst bw)) g.
(** The [weights] array of the file, e.g. lebedev_laikov/lebedev_laikov_14.hpp:31-46. *)
Definition coded_weights (g : coded) : list lit :=
  flat_map (fun bw => map (fun _ => snd bw) (block_points (fst bw))) g.

Section Value.
Context {S : Scalar}.
(** Value of a literal (e.g. lebedev_laikov/lebedev_laikov_6.hpp:14-15); a leading minus is the negation operator. *)
Definition lit_val (d : lit) : S :=
  if (fst d <? 0)%Z then sopp (sdec (- fst d) (snd d)) else sdec (fst d) (snd d).
(** Value of a point, e.g. lebedev_laikov/lebedev_laikov_6.hpp:14. *)
Definition lit3_val (p : lit3) : @pt3 S :=
  let '(x, y, z) := p in (lit_val x, lit_val y, lit_val z).
(** The two arrays of a file, e.g. lebedev_laikov/lebedev_laikov_14.hpp:13-47. *)
Definition coded_grid (g : coded) : @static_grid S :=
  (map lit3_val (coded_points g), map lit_val (coded_weights g)).
(** The two arrays of a Womersley file, e.g. womersley/womersley_32.hpp:13-48: the weights are
    create_array<n, T>(4.0 * M_PI / n.0). *)
Definition womersley_grid (n : Z) (ps : list lit3) : @static_grid S :=
  (map lit3_val ps, repeat (sdiv (smul (sofZ 4) spi) (sofZ n)) (Z.to_nat n)).
End Value.
