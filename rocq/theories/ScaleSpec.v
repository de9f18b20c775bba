(** Scale bar vocabulary: the default lengths, sorted by their number of parts,
    and the units of length in terms of one another. *)
From Coq Require Import ZArith Reals String Ascii Bool List.
From Verif Require Import PyBase PyStr.
Import ListNotations.
Open Scope R_scope.

Definition parts_of : list (Z * list Z) :=
  [(2, [10]); (3, [15; 30; 75; 150; 750; 75000]);
   (4, [4; 12; 20; 40; 100; 120; 200; 400; 1000; 2000; 4000; 10000; 20000; 40000; 100000; 200000]);
   (6, [240; 300; 600; 6000; 60000])]%Z.
Definition tabulated (len d : Z) : Prop := exists ls, In (d, ls) parts_of /\ In len ls.

Definition known_units : list str := map str_of
  ["m"; "km"; "dm"; "cm"; "mm"; "kmi"; "in"; "ft"; "yd"; "mi"; "fath"; "ch"; "link"; "us-in"; "us-ft"; "us-yd"; "us-ch"; "us-mi"; "ind-yd"; "ind-ft"; "ind-ch"]%string.
Definition corners : list str := map str_of ["ll"; "lr"; "ul"; "ur"]%string.
