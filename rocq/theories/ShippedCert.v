(** * Certificate for the shipped network

    GENERATED by tools/gen_cert.py.  For every entry of the shipped network, in
    order: the number of its connected component; its depth in a tree of
    conversions and the position of its parent among its children; its size:
    numerator and denominator of k, exponent of the formation volume factor,
    origin; the units of [gates1] and [gates2] through which it is attached to
    the blocks of conversions that disagree (0: none).  Nothing depends on how it was found: it is checked in ShippedCheck.v. *)
From Coq Require Import String QArith.
From Verif Require Import Py SymAffine.
Local Open Scope Z_scope.
Record crow := Crow { c_comp : N; c_depth : nat; c_parent : nat; c_size : csize; c_g1 : N; c_g2 : N }.
Definition z (c : N) (d i : nat) (n : Z) (m : positive) : crow := Crow c d i (n # m, 0, 0%Q) 0 0.
Definition zz (c : N) (d i : nat) (n : Z) (m : positive) (e : Z) (o : Q) (g1 g2 : N) : crow := Crow c d i (n # m, e, o) g1 g2.
Definition gates1 : list str := [u "m3"; u "cm3"; u "m³"; u "cm³"; u "gallonUS"; u "USgal"; u "cubic centimeter"; u "cubic meter"; u "standard cubic meter"; u "cubic inch"; u "cubic foot"; u "cf"; u "standard cubic foot"; u "standard barrel"; u "absolute psi"; u "psi gauge"; u "psi"; u "absolute bar"; u "bar gauge"; u "bar"; u "API"; u "SgO"; u "g/cc"].
Definition gates2 : list str := [u "gallonUK"; u "fluid ounce UK"; u "gillUK"; u "pintUK"; u "quartUK"].
Definition cert : list crow := [
z 0 4 0 1 1;
z 0 3 2 1 1;
z 0 2 4 1000000 1;
z 0 3 2 1000000 1;
z 0 1 7 1000000000 1;
z 0 2 0 1000000000 1;
z 0 2 0 1000000000 1;
z 0 2 0 1000000000 1;
z 0 0 0 60000000000 1;
z 0 1 0 60000000000 1;
z 0 1 8 3600000000000 1;
z 0 2 0 3600000000000 1;
z 0 2 0 3600000000000 1;
z 0 2 0 3600000000000 1;
z 0 2 0 3600000000000 1;
z 0 2 0 3600000000000 1;
z 0 2 7 86400000000000 1;
z 0 3 0 86400000000000 1;
z 0 3 0 86400000000000 1;
z 0 3 0 86400000000000 1;
z 0 3 0 86400000000000 1;
z 0 3 6 604800000000000 1;
z 0 4 0 604800000000000 1;
z 0 4 0 604800000000000 1;
z 0 4 0 604800000000000 1;
z 0 3 6 2629800000000000 1;
z 0 4 0 2629800000000000 1;
z 0 4 0 2629800000000000 1;
z 0 4 0 2629800000000000 1;
z 0 3 8 31557600000000000 1;
z 0 4 0 31557600000000000 1;
z 0 4 0 31557600000000000 1;
z 0 4 0 31557600000000000 1;
z 0 4 0 31557600000000000 1;
z 0 4 3 157788000000000000 1;
z 0 4 3 315576000000000000 1;
z 0 4 4 3155760000000000000 1;
z 0 5 0 3155760000000000000 1;
z 0 5 0 1 1;
z 0 3 0 1000000 1;
z 0 2 0 1000000000 1;
z 0 1 0 60000000000 1;
z 0 2 0 3600000000000 1;
z 0 3 0 86400000000000 1;
z 0 4 0 604800000000000 1;
z 0 4 0 2629800000000000 1;
z 0 4 0 31557600000000000 1;
z 0 5 0 157788000000000000 1;
z 0 5 0 315576000000000000 1;
z 0 5 0 3155760000000000000 1;
z 0 2 0 60000000000 1;
z 0 5 0 31557600000000000 1;
z 0 5 0 1 1;
z 0 3 0 1000000 1;
z 0 2 0 1000000000 1;
z 0 1 0 60000000000 1;
z 0 2 0 3600000000000 1;
z 0 3 0 86400000000000 1;
z 0 4 0 604800000000000 1;
z 0 4 0 2629800000000000 1;
z 0 4 0 31557600000000000 1;
z 0 5 0 157788000000000000 1;
z 0 5 0 315576000000000000 1;
z 0 5 0 3155760000000000000 1;
z 0 2 0 60000000000 1;
z 0 5 0 31557600000000000 1;
z 0 5 0 1 1;
z 0 3 0 1000000 1;
z 0 2 0 1000000000 1;
z 0 1 0 60000000000 1;
z 0 2 0 3600000000000 1;
z 0 3 0 86400000000000 1;
z 0 4 0 604800000000000 1;
z 0 4 0 2629800000000000 1;
z 0 4 0 31557600000000000 1;
z 0 5 0 157788000000000000 1;
z 0 5 0 315576000000000000 1;
z 0 5 0 3155760000000000000 1;
z 0 2 0 60000000000 1;
z 0 5 0 31557600000000000 1;
z 0 4 0 1 1;
z 0 4 0 1000000 1;
z 0 3 0 1000000000 1;
z 0 3 0 1000000000 1;
z 0 3 0 1000000000 1;
z 0 3 0 3600000000000 1;
z 0 3 0 3600000000000 1;
z 0 3 0 3600000000000 1;
z 0 3 0 3600000000000 1;
z 0 4 0 86400000000000 1;
z 0 4 0 86400000000000 1;
z 0 5 0 2629800000000000 1;
z 0 5 0 2629800000000000 1;
z 0 5 0 2629800000000000 1;
z 0 5 0 31557600000000000 1;
z 0 5 0 31557600000000000 1;
z 0 6 0 3155760000000000000 1;
z 0 3 0 1000000000000000000000000000000000000000 1;
z 0 3 0 1000000000000000000000000000000000000 1;
z 0 3 0 1000000000000000000000000000000000 1;
z 0 3 0 1000000000000000000000000000000 1;
z 0 3 0 1000000000000000000000000000 1;
z 0 3 0 1000000000000000000000000 1;
z 0 3 0 1000000000000000000000 1;
z 0 3 0 1000000000000000000 1;
z 0 3 0 1000000000000000 1;
z 0 3 0 1000000000000 1;
z 0 3 0 1000000000000 1;
z 0 3 0 100000000000 1;
z 0 3 0 10000000000 1;
z 0 3 0 100000000 1;
z 0 3 0 10000000 1;
z 0 3 0 1000 1;
z 0 3 0 1000 1;
z 0 3 0 1 1000;
z 0 3 0 1 1000000;
z 0 3 0 1 1000000000;
z 0 3 0 1 1000000000000;
z 0 3 0 1 1000000000000000;
z 0 3 0 1 1000000000000000000;
z 0 3 0 1 1000000000000000000000;
z 1 2 0 1 1;
zz 1 3 0 1 1 (0) (-5463 # 20) 0 0;
zz 1 1 0 5 9 (0) (-160 # 9) 0 0;
zz 1 2 0 5 9 (0) (-5463 # 20) 0 0;
z 1 1 8 1 1;
z 1 2 0 1 1;
z 1 2 0 1 1;
z 1 2 0 1 1;
z 1 2 0 1 1;
zz 1 0 0 5 9 (0) (-160 # 9) 0 0;
zz 1 1 0 5 9 (0) (-160 # 9) 0 0;
zz 1 1 0 5 9 (0) (-160 # 9) 0 0;
zz 1 1 0 5 9 (0) (-160 # 9) 0 0;
zz 1 1 6 5 9 (0) (-5463 # 20) 0 0;
zz 1 2 0 5 9 (0) (-5463 # 20) 0 0;
zz 1 2 0 5 9 (0) (-5463 # 20) 0 0;
zz 1 2 0 5 9 (0) (-5463 # 20) 0 0;
zz 1 2 6 1 1 (0) (-5463 # 20) 0 0;
zz 1 3 0 1 1 (0) (-5463 # 20) 0 0;
zz 1 3 0 1 1 (0) (-5463 # 20) 0 0;
zz 1 3 0 1 1 (0) (-5463 # 20) 0 0;
z 1 2 0 1 1;
zz 1 1 0 5 9 (0) (-160 # 9) 0 0;
zz 1 2 0 5 9 (0) (-5463 # 20) 0 0;
zz 1 3 0 1 1 (0) (-5463 # 20) 0 0;
z 1 3 0 1 1;
z 1 3 0 1 1;
z 1 3 0 1 1;
z 1 3 0 1 1;
zz 1 2 0 5 9 (0) (-160 # 9) 0 0;
zz 1 2 0 5 9 (0) (-160 # 9) 0 0;
zz 1 2 0 5 9 (0) (-160 # 9) 0 0;
zz 1 3 0 5 9 (0) (-5463 # 20) 0 0;
zz 1 3 0 5 9 (0) (-5463 # 20) 0 0;
zz 1 3 0 5 9 (0) (-5463 # 20) 0 0;
zz 1 4 0 1 1 (0) (-5463 # 20) 0 0;
zz 1 4 0 1 1 (0) (-5463 # 20) 0 0;
zz 1 4 0 1 1 (0) (-5463 # 20) 0 0;
z 1 2 0 1 1;
zz 1 1 0 5 9 (0) (-160 # 9) 0 0;
zz 1 2 0 5 9 (0) (-5463 # 20) 0 0;
zz 1 3 0 1 1 (0) (-5463 # 20) 0 0;
z 1 3 0 1 1;
z 1 3 0 1 1;
z 1 3 0 1 1;
z 1 3 0 1 1;
zz 1 2 0 5 9 (0) (-160 # 9) 0 0;
zz 1 2 0 5 9 (0) (-160 # 9) 0 0;
zz 1 2 0 5 9 (0) (-160 # 9) 0 0;
zz 1 3 0 5 9 (0) (-5463 # 20) 0 0;
zz 1 3 0 5 9 (0) (-5463 # 20) 0 0;
zz 1 3 0 5 9 (0) (-5463 # 20) 0 0;
zz 1 4 0 1 1 (0) (-5463 # 20) 0 0;
zz 1 4 0 1 1 (0) (-5463 # 20) 0 0;
zz 1 4 0 1 1 (0) (-5463 # 20) 0 0;
zz 2 5 28 1 1 (0) (0 # 1) 1 1;
zz 2 6 0 1000000000000000000000000000000000000000000000000000000000000000000000000000000000000000000 1 (0) (0 # 1) 1 1;
zz 2 6 0 1000000000000000000000000000000000000000000000000000000000000000000000000000000000 1 (0) (0 # 1) 1 1;
zz 2 6 0 1000000000000000000000000000000000000000000000000000000000000000000000000 1 (0) (0 # 1) 1 1;
zz 2 6 0 1000000000000000000000000000000000000000000000000000000000000000 1 (0) (0 # 1) 1 1;
zz 2 6 0 1000000000000000000000000000000000000000000000000000000 1 (0) (0 # 1) 1 1;
zz 2 6 0 1000000000000000000000000000000000000000000000 1 (0) (0 # 1) 1 1;
zz 2 6 0 1000000000000000000000000000000000000 1 (0) (0 # 1) 1 1;
zz 2 6 0 1000000000000000000000000000 1 (0) (0 # 1) 1 1;
zz 2 6 0 1000000000000000000 1 (0) (0 # 1) 1 1;
zz 2 6 0 1000 1 (0) (0 # 1) 1 1;
zz 2 6 0 1000000000 1 (0) (0 # 1) 1 1;
zz 2 6 0 1000000 1 (0) (0 # 1) 1 1;
zz 2 6 0 1000 1 (0) (0 # 1) 1 1;
zz 2 6 0 1 1000 (0) (0 # 1) 1 1;
zz 2 6 0 1 1000000 (0) (0 # 1) 2 1;
zz 2 6 0 1 1000000000 (0) (0 # 1) 1 1;
zz 2 6 0 1 1000000000000000000 (0) (0 # 1) 1 1;
zz 2 6 0 1 1000000000000000000 (0) (0 # 1) 1 1;
zz 2 6 0 1 1000000000000000000000000000 (0) (0 # 1) 1 1;
zz 2 6 0 1 1000000000000000000000000000000000000 (0) (0 # 1) 1 1;
zz 2 6 0 1 1000000000000000000000000000000000000000000000 (0) (0 # 1) 1 1;
zz 2 6 0 1 1000000000000000000000000000000000000000000000000000000 (0) (0 # 1) 1 1;
zz 2 6 0 1 1000000000000000000000000000000000000000000000000000000000000000 (0) (0 # 1) 1 1;
zz 2 6 0 1 1000000000000000000000000000000000000000000000000000000000000000000000000 (0) (0 # 1) 1 1;
zz 2 6 0 1 1000000000000000000000000000000000000000000000000000000000000000000000000000000000 (0) (0 # 1) 1 1;
zz 2 6 0 1 1000000000000000000000000000000000000000000000000000000000000000000000000000000000000000000 (0) (0 # 1) 1 1;
zz 2 5 27 1 1 (0) (0 # 1) 3 1;
zz 2 6 0 1000000000000000000000000000000000000000000000000000000000000000000000000000000000000000000 1 (0) (0 # 1) 3 1;
zz 2 6 0 1000000000000000000000000000000000000000000000000000000000000000000000000000000000 1 (0) (0 # 1) 3 1;
zz 2 6 0 1000000000000000000000000000000000000000000000000000000000000000000000000 1 (0) (0 # 1) 3 1;
zz 2 6 0 1000000000000000000000000000000000000000000000000000000000000000 1 (0) (0 # 1) 3 1;
zz 2 6 0 1000000000000000000000000000000000000000000000000000000 1 (0) (0 # 1) 3 1;
zz 2 6 0 1000000000000000000000000000000000000000000000 1 (0) (0 # 1) 3 1;
zz 2 6 0 1000000000000000000000000000000000000 1 (0) (0 # 1) 3 1;
zz 2 6 0 1000000000000000000000000000 1 (0) (0 # 1) 3 1;
zz 2 6 0 1000000000000000000 1 (0) (0 # 1) 3 1;
zz 2 6 0 1000 1 (0) (0 # 1) 3 1;
zz 2 6 0 1000000000 1 (0) (0 # 1) 3 1;
zz 2 6 0 1000000 1 (0) (0 # 1) 3 1;
zz 2 6 0 1000 1 (0) (0 # 1) 3 1;
zz 2 6 0 1 1000 (0) (0 # 1) 3 1;
zz 2 6 0 1 1000000 (0) (0 # 1) 4 1;
zz 2 6 0 1 1000000000 (0) (0 # 1) 3 1;
zz 2 6 0 1 1000000000000000000 (0) (0 # 1) 3 1;
zz 2 6 0 1 1000000000000000000 (0) (0 # 1) 3 1;
zz 2 6 0 1 1000000000000000000000000000 (0) (0 # 1) 3 1;
zz 2 6 0 1 1000000000000000000000000000000000000 (0) (0 # 1) 3 1;
zz 2 6 0 1 1000000000000000000000000000000000000000000000 (0) (0 # 1) 3 1;
zz 2 6 0 1 1000000000000000000000000000000000000000000000000000000 (0) (0 # 1) 3 1;
zz 2 6 0 1 1000000000000000000000000000000000000000000000000000000000000000 (0) (0 # 1) 3 1;
zz 2 6 0 1 1000000000000000000000000000000000000000000000000000000000000000000000000 (0) (0 # 1) 3 1;
zz 2 6 0 1 1000000000000000000000000000000000000000000000000000000000000000000000000000000000 (0) (0 # 1) 3 1;
zz 2 6 0 1 1000000000000000000000000000000000000000000000000000000000000000000000000000000000000000000 (0) (0 # 1) 3 1;
zz 2 6 0 1 1 (0) (0 # 1) 1 1;
zz 2 6 0 1 1 (0) (0 # 1) 3 1;
zz 2 5 26 1 1 (0) (0 # 1) 9 1;
zz 2 6 0 1000000000000000000000000000000 1 (0) (0 # 1) 9 1;
zz 2 6 0 1000000000000000000000000000 1 (0) (0 # 1) 9 1;
zz 2 6 0 1000000000000000000000000 1 (0) (0 # 1) 9 1;
zz 2 6 0 1000000000000000000000 1 (0) (0 # 1) 9 1;
zz 2 6 0 1000000000000000000 1 (0) (0 # 1) 9 1;
zz 2 6 0 1000000000000000 1 (0) (0 # 1) 9 1;
zz 2 6 0 1000000000000 1 (0) (0 # 1) 9 1;
zz 2 6 0 1000000000 1 (0) (0 # 1) 9 1;
zz 2 6 0 1000000 1 (0) (0 # 1) 9 1;
zz 2 6 0 1000 1 (0) (0 # 1) 9 1;
zz 2 6 0 1000 1 (0) (0 # 1) 9 1;
zz 2 6 0 100 1 (0) (0 # 1) 9 1;
zz 2 6 0 10 1 (0) (0 # 1) 9 1;
zz 2 6 0 1 10 (0) (0 # 1) 9 1;
zz 2 6 0 1 100 (0) (0 # 1) 9 1;
zz 2 6 0 1 1000 (0) (0 # 1) 9 1;
zz 2 6 0 1 1000000 (0) (0 # 1) 9 1;
zz 2 6 0 1 1000000 (0) (0 # 1) 9 1;
zz 2 6 0 1 1000000000 (0) (0 # 1) 9 1;
zz 2 6 0 1 1000000000000 (0) (0 # 1) 9 1;
zz 2 6 0 1 1000000000000000 (0) (0 # 1) 9 1;
zz 2 6 0 1 1000000000000000000 (0) (0 # 1) 9 1;
zz 2 6 0 1 1000000000000000000000 (0) (0 # 1) 9 1;
zz 2 6 0 1 1000000000000000000000000 (0) (0 # 1) 9 1;
zz 2 6 0 1 1000000000000000000000000000 (0) (0 # 1) 9 1;
zz 2 6 0 1 1000000000000000000000000000000 (0) (0 # 1) 9 1;
zz 2 5 26 1 1 (0) (0 # 1) 9 1;
zz 2 6 0 1000000000000000000000000000000 1 (0) (0 # 1) 9 1;
zz 2 6 0 1000000000000000000000000000 1 (0) (0 # 1) 9 1;
zz 2 6 0 1000000000000000000000000 1 (0) (0 # 1) 9 1;
zz 2 6 0 1000000000000000000000 1 (0) (0 # 1) 9 1;
zz 2 6 0 1000000000000000000 1 (0) (0 # 1) 9 1;
zz 2 6 0 1000000000000000 1 (0) (0 # 1) 9 1;
zz 2 6 0 1000000000000 1 (0) (0 # 1) 9 1;
zz 2 6 0 1000000000 1 (0) (0 # 1) 9 1;
zz 2 6 0 1000000 1 (0) (0 # 1) 9 1;
zz 2 6 0 1000 1 (0) (0 # 1) 9 1;
zz 2 6 0 1000 1 (0) (0 # 1) 9 1;
zz 2 6 0 100 1 (0) (0 # 1) 9 1;
zz 2 6 0 10 1 (0) (0 # 1) 9 1;
zz 2 6 0 1 10 (0) (0 # 1) 9 1;
zz 2 6 0 1 100 (0) (0 # 1) 9 1;
zz 2 6 0 1 1000 (0) (0 # 1) 9 1;
zz 2 6 0 1 1000000 (0) (0 # 1) 9 1;
zz 2 6 0 1 1000000 (0) (0 # 1) 9 1;
zz 2 6 0 1 1000000000 (0) (0 # 1) 9 1;
zz 2 6 0 1 1000000000000 (0) (0 # 1) 9 1;
zz 2 6 0 1 1000000000000000 (0) (0 # 1) 9 1;
zz 2 6 0 1 1000000000000000000 (0) (0 # 1) 9 1;
zz 2 6 0 1 1000000000000000000000 (0) (0 # 1) 9 1;
zz 2 6 0 1 1000000000000000000000000 (0) (0 # 1) 9 1;
zz 2 6 0 1 1000000000000000000000000000 (0) (0 # 1) 9 1;
zz 2 6 0 1 1000000000000000000000000000000 (0) (0 # 1) 9 1;
zz 2 5 26 1 1 (0) (0 # 1) 9 1;
zz 2 6 0 1000000000000000000000000000000 1 (0) (0 # 1) 9 1;
zz 2 6 0 1000000000000000000000000000 1 (0) (0 # 1) 9 1;
zz 2 6 0 1000000000000000000000000 1 (0) (0 # 1) 9 1;
zz 2 6 0 1000000000000000000000 1 (0) (0 # 1) 9 1;
zz 2 6 0 1000000000000000000 1 (0) (0 # 1) 9 1;
zz 2 6 0 1000000000000000 1 (0) (0 # 1) 9 1;
zz 2 6 0 1000000000000 1 (0) (0 # 1) 9 1;
zz 2 6 0 1000000000 1 (0) (0 # 1) 9 1;
zz 2 6 0 1000000 1 (0) (0 # 1) 9 1;
zz 2 6 0 1000 1 (0) (0 # 1) 9 1;
zz 2 6 0 1000 1 (0) (0 # 1) 9 1;
zz 2 6 0 100 1 (0) (0 # 1) 9 1;
zz 2 6 0 10 1 (0) (0 # 1) 9 1;
zz 2 6 0 1 10 (0) (0 # 1) 9 1;
zz 2 6 0 1 100 (0) (0 # 1) 9 1;
zz 2 6 0 1 1000 (0) (0 # 1) 9 1;
zz 2 6 0 1 1000000 (0) (0 # 1) 9 1;
zz 2 6 0 1 1000000 (0) (0 # 1) 9 1;
zz 2 6 0 1 1000000000 (0) (0 # 1) 9 1;
zz 2 6 0 1 1000000000000 (0) (0 # 1) 9 1;
zz 2 6 0 1 1000000000000000 (0) (0 # 1) 9 1;
zz 2 6 0 1 1000000000000000000 (0) (0 # 1) 9 1;
zz 2 6 0 1 1000000000000000000000 (0) (0 # 1) 9 1;
zz 2 6 0 1 1000000000000000000000000 (0) (0 # 1) 9 1;
zz 2 6 0 1 1000000000000000000000000000 (0) (0 # 1) 9 1;
zz 2 6 0 1 1000000000000000000000000000000 (0) (0 # 1) 9 1;
zz 2 7 26 1 1 (0) (0 # 1) 9 1;
zz 2 8 0 1000000000000000000000000000000 1 (0) (0 # 1) 9 1;
zz 2 8 0 1000000000000000000000000000 1 (0) (0 # 1) 9 1;
zz 2 8 0 1000000000000000000000000 1 (0) (0 # 1) 9 1;
zz 2 8 0 1000000000000000000000 1 (0) (0 # 1) 9 1;
zz 2 8 0 1000000000000000000 1 (0) (0 # 1) 9 1;
zz 2 8 0 1000000000000000 1 (0) (0 # 1) 9 1;
zz 2 8 0 1000000000000 1 (0) (0 # 1) 9 1;
zz 2 8 0 1000000000 1 (0) (0 # 1) 9 1;
zz 2 8 0 1000000 1 (0) (0 # 1) 9 1;
zz 2 8 0 1000 1 (0) (0 # 1) 9 1;
zz 2 8 0 1000 1 (0) (0 # 1) 9 1;
zz 2 8 0 100 1 (0) (0 # 1) 9 1;
zz 2 8 0 10 1 (0) (0 # 1) 9 1;
zz 2 8 0 1 10 (0) (0 # 1) 9 1;
zz 2 8 0 1 100 (0) (0 # 1) 9 1;
zz 2 8 0 1 1000 (0) (0 # 1) 9 1;
zz 2 8 0 1 1000000 (0) (0 # 1) 9 1;
zz 2 8 0 1 1000000 (0) (0 # 1) 9 1;
zz 2 8 0 1 1000000000 (0) (0 # 1) 9 1;
zz 2 8 0 1 1000000000000 (0) (0 # 1) 9 1;
zz 2 8 0 1 1000000000000000 (0) (0 # 1) 9 1;
zz 2 8 0 1 1000000000000000000 (0) (0 # 1) 9 1;
zz 2 8 0 1 1000000000000000000000 (0) (0 # 1) 9 1;
zz 2 8 0 1 1000000000000000000000000 (0) (0 # 1) 9 1;
zz 2 8 0 1 1000000000000000000000000000 (0) (0 # 1) 9 1;
zz 2 8 0 1 1000000000000000000000000000000 (0) (0 # 1) 9 1;
zz 2 5 26 1 1 (0) (0 # 1) 9 1;
zz 2 6 0 1000000000000000000000000000000 1 (0) (0 # 1) 9 1;
zz 2 6 0 1000000000000000000000000000 1 (0) (0 # 1) 9 1;
zz 2 6 0 1000000000000000000000000 1 (0) (0 # 1) 9 1;
zz 2 6 0 1000000000000000000000 1 (0) (0 # 1) 9 1;
zz 2 6 0 1000000000000000000 1 (0) (0 # 1) 9 1;
zz 2 6 0 1000000000000000 1 (0) (0 # 1) 9 1;
zz 2 6 0 1000000000000 1 (0) (0 # 1) 9 1;
zz 2 6 0 1000000000 1 (0) (0 # 1) 9 1;
zz 2 6 0 1000000 1 (0) (0 # 1) 9 1;
zz 2 6 0 1000 1 (0) (0 # 1) 9 1;
zz 2 6 0 1000 1 (0) (0 # 1) 9 1;
zz 2 6 0 100 1 (0) (0 # 1) 9 1;
zz 2 6 0 10 1 (0) (0 # 1) 9 1;
zz 2 6 0 1 10 (0) (0 # 1) 9 1;
zz 2 6 0 1 100 (0) (0 # 1) 9 1;
zz 2 6 0 1 1000 (0) (0 # 1) 9 1;
zz 2 6 0 1 1000000 (0) (0 # 1) 9 1;
zz 2 6 0 1 1000000 (0) (0 # 1) 9 1;
zz 2 6 0 1 1000000000 (0) (0 # 1) 9 1;
zz 2 6 0 1 1000000000000 (0) (0 # 1) 9 1;
zz 2 6 0 1 1000000000000000 (0) (0 # 1) 9 1;
zz 2 6 0 1 1000000000000000000 (0) (0 # 1) 9 1;
zz 2 6 0 1 1000000000000000000000 (0) (0 # 1) 9 1;
zz 2 6 0 1 1000000000000000000000000 (0) (0 # 1) 9 1;
zz 2 6 0 1 1000000000000000000000000000 (0) (0 # 1) 9 1;
zz 2 6 0 1 1000000000000000000000000000000 (0) (0 # 1) 9 1;
z 3 0 0 1 1;
z 3 1 0 1000000000000000000000000000000 1;
z 3 1 0 1000000000000000000000000000 1;
z 3 1 0 1000000000000000000000000 1;
z 3 1 0 1000000000000000000000 1;
z 3 1 0 1000000000000000000 1;
z 3 1 0 1000000000000000 1;
z 3 1 0 1000000000000 1;
z 3 1 0 1000000000 1;
z 3 1 0 1000000 1;
z 3 1 0 1000 1;
z 3 1 0 1000 1;
z 3 1 0 100 1;
z 3 1 0 10 1;
z 3 1 0 1 10;
z 3 1 0 1 100;
z 3 1 0 1 1000;
z 3 1 0 1 1000000;
z 3 1 0 1 1000000;
z 3 1 0 1 1000000000;
z 3 1 0 1 1000000000000;
z 3 1 0 1 1000000000000000;
z 3 1 0 1 1000000000000000000;
z 3 1 0 1 1000000000000000000000;
z 3 1 0 1 1000000000000000000000000;
z 3 1 0 1 1000000000000000000000000000;
z 3 1 0 1 1000000000000000000000000000000;
zz 2 7 26 1 1 (0) (0 # 1) 9 1;
zz 2 8 0 1000000000000000000000000000000 1 (0) (0 # 1) 9 1;
zz 2 8 0 1000000000000000000000000000 1 (0) (0 # 1) 9 1;
zz 2 8 0 1000000000000000000000000 1 (0) (0 # 1) 9 1;
zz 2 8 0 1000000000000000000000 1 (0) (0 # 1) 9 1;
zz 2 8 0 1000000000000000000 1 (0) (0 # 1) 9 1;
zz 2 8 0 1000000000000000 1 (0) (0 # 1) 9 1;
zz 2 8 0 1000000000000 1 (0) (0 # 1) 9 1;
zz 2 8 0 1000000000 1 (0) (0 # 1) 9 1;
zz 2 8 0 1000000 1 (0) (0 # 1) 9 1;
zz 2 8 0 1000 1 (0) (0 # 1) 9 1;
zz 2 8 0 1000 1 (0) (0 # 1) 9 1;
zz 2 8 0 100 1 (0) (0 # 1) 9 1;
zz 2 8 0 10 1 (0) (0 # 1) 9 1;
zz 2 8 0 1 10 (0) (0 # 1) 9 1;
zz 2 8 0 1 100 (0) (0 # 1) 9 1;
zz 2 8 0 1 1000 (0) (0 # 1) 9 1;
zz 2 8 0 1 1000000 (0) (0 # 1) 9 1;
zz 2 8 0 1 1000000 (0) (0 # 1) 9 1;
zz 2 8 0 1 1000000000 (0) (0 # 1) 9 1;
zz 2 8 0 1 1000000000000 (0) (0 # 1) 9 1;
zz 2 8 0 1 1000000000000000 (0) (0 # 1) 9 1;
zz 2 8 0 1 1000000000000000000 (0) (0 # 1) 9 1;
zz 2 8 0 1 1000000000000000000000 (0) (0 # 1) 9 1;
zz 2 8 0 1 1000000000000000000000000 (0) (0 # 1) 9 1;
zz 2 8 0 1 1000000000000000000000000000 (0) (0 # 1) 9 1;
zz 2 8 0 1 1000000000000000000000000000000 (0) (0 # 1) 9 1;
z 3 2 26 1 1;
z 3 3 0 1000000000000000000000000000000 1;
z 3 3 0 1000000000000000000000000000 1;
z 3 3 0 1000000000000000000000000 1;
z 3 3 0 1000000000000000000000 1;
z 3 3 0 1000000000000000000 1;
z 3 3 0 1000000000000000 1;
z 3 3 0 1000000000000 1;
z 3 3 0 1000000000 1;
z 3 3 0 1000000 1;
z 3 3 0 1000 1;
z 3 3 0 1000 1;
z 3 3 0 100 1;
z 3 3 0 10 1;
z 3 3 0 1 10;
z 3 3 0 1 100;
z 3 3 0 1 1000;
z 3 3 0 1 1000000;
z 3 3 0 1 1000000;
z 3 3 0 1 1000000000;
z 3 3 0 1 1000000000000;
z 3 3 0 1 1000000000000000;
z 3 3 0 1 1000000000000000000;
z 3 3 0 1 1000000000000000000000;
z 3 3 0 1 1000000000000000000000000;
z 3 3 0 1 1000000000000000000000000000;
z 3 3 0 1 1000000000000000000000000000000;
zz 2 6 26 1 1 (-1) (0 # 1) 9 1;
zz 2 7 0 1000000000000000000000000000000 1 (-1) (0 # 1) 9 1;
zz 2 7 0 1000000000000000000000000000 1 (-1) (0 # 1) 9 1;
zz 2 7 0 1000000000000000000000000 1 (-1) (0 # 1) 9 1;
zz 2 7 0 1000000000000000000000 1 (-1) (0 # 1) 9 1;
zz 2 7 0 1000000000000000000 1 (-1) (0 # 1) 9 1;
zz 2 7 0 1000000000000000 1 (-1) (0 # 1) 9 1;
zz 2 7 0 1000000000000 1 (-1) (0 # 1) 9 1;
zz 2 7 0 1000000000 1 (-1) (0 # 1) 9 1;
zz 2 7 0 1000000 1 (-1) (0 # 1) 9 1;
zz 2 7 0 1000 1 (-1) (0 # 1) 9 1;
zz 2 7 0 1000 1 (-1) (0 # 1) 9 1;
zz 2 7 0 100 1 (-1) (0 # 1) 9 1;
zz 2 7 0 10 1 (-1) (0 # 1) 9 1;
zz 2 7 0 1 10 (-1) (0 # 1) 9 1;
zz 2 7 0 1 100 (-1) (0 # 1) 9 1;
zz 2 7 0 1 1000 (-1) (0 # 1) 9 1;
zz 2 7 0 1 1000000 (-1) (0 # 1) 9 1;
zz 2 7 0 1 1000000 (-1) (0 # 1) 9 1;
zz 2 7 0 1 1000000000 (-1) (0 # 1) 9 1;
zz 2 7 0 1 1000000000000 (-1) (0 # 1) 9 1;
zz 2 7 0 1 1000000000000000 (-1) (0 # 1) 9 1;
zz 2 7 0 1 1000000000000000000 (-1) (0 # 1) 9 1;
zz 2 7 0 1 1000000000000000000000 (-1) (0 # 1) 9 1;
zz 2 7 0 1 1000000000000000000000000 (-1) (0 # 1) 9 1;
zz 2 7 0 1 1000000000000000000000000000 (-1) (0 # 1) 9 1;
zz 2 7 0 1 1000000000000000000000000000000 (-1) (0 # 1) 9 1;
zz 2 6 26 1 1 (-1) (0 # 1) 9 1;
zz 2 7 0 1000000000000000000000000000000 1 (-1) (0 # 1) 9 1;
zz 2 7 0 1000000000000000000000000000 1 (-1) (0 # 1) 9 1;
zz 2 7 0 1000000000000000000000000 1 (-1) (0 # 1) 9 1;
zz 2 7 0 1000000000000000000000 1 (-1) (0 # 1) 9 1;
zz 2 7 0 1000000000000000000 1 (-1) (0 # 1) 9 1;
zz 2 7 0 1000000000000000 1 (-1) (0 # 1) 9 1;
zz 2 7 0 1000000000000 1 (-1) (0 # 1) 9 1;
zz 2 7 0 1000000000 1 (-1) (0 # 1) 9 1;
zz 2 7 0 1000000 1 (-1) (0 # 1) 9 1;
zz 2 7 0 1000 1 (-1) (0 # 1) 9 1;
zz 2 7 0 1000 1 (-1) (0 # 1) 9 1;
zz 2 7 0 100 1 (-1) (0 # 1) 9 1;
zz 2 7 0 10 1 (-1) (0 # 1) 9 1;
zz 2 7 0 1 10 (-1) (0 # 1) 9 1;
zz 2 7 0 1 100 (-1) (0 # 1) 9 1;
zz 2 7 0 1 1000 (-1) (0 # 1) 9 1;
zz 2 7 0 1 1000000 (-1) (0 # 1) 9 1;
zz 2 7 0 1 1000000 (-1) (0 # 1) 9 1;
zz 2 7 0 1 1000000000 (-1) (0 # 1) 9 1;
zz 2 7 0 1 1000000000000 (-1) (0 # 1) 9 1;
zz 2 7 0 1 1000000000000000 (-1) (0 # 1) 9 1;
zz 2 7 0 1 1000000000000000000 (-1) (0 # 1) 9 1;
zz 2 7 0 1 1000000000000000000000 (-1) (0 # 1) 9 1;
zz 2 7 0 1 1000000000000000000000000 (-1) (0 # 1) 9 1;
zz 2 7 0 1 1000000000000000000000000000 (-1) (0 # 1) 9 1;
zz 2 7 0 1 1000000000000000000000000000000 (-1) (0 # 1) 9 1;
zz 2 9 26 1 1000 (0) (0 # 1) 7 1;
zz 2 10 0 1000000000000000000000000000 1 (0) (0 # 1) 7 1;
zz 2 10 0 1000000000000000000000000 1 (0) (0 # 1) 7 1;
zz 2 10 0 1000000000000000000000 1 (0) (0 # 1) 7 1;
zz 2 10 0 1000000000000000000 1 (0) (0 # 1) 7 1;
zz 2 10 0 1000000000000000 1 (0) (0 # 1) 7 1;
zz 2 10 0 1000000000000 1 (0) (0 # 1) 7 1;
zz 2 10 0 1000000000 1 (0) (0 # 1) 7 1;
zz 2 10 0 1000000 1 (0) (0 # 1) 7 1;
zz 2 10 0 1000 1 (0) (0 # 1) 7 1;
zz 2 10 0 1 1 (0) (0 # 1) 7 1;
zz 2 10 0 1 1 (0) (0 # 1) 7 1;
zz 2 10 0 1 10 (0) (0 # 1) 7 1;
zz 2 10 0 1 100 (0) (0 # 1) 7 1;
zz 2 10 0 1 10000 (0) (0 # 1) 7 1;
zz 2 10 0 1 100000 (0) (0 # 1) 7 1;
zz 2 9 1 1 1000000 (0) (0 # 1) 7 1;
zz 2 10 0 1 1000000000 (0) (0 # 1) 7 1;
zz 2 10 0 1 1000000000 (0) (0 # 1) 7 1;
zz 2 10 0 1 1000000000000 (0) (0 # 1) 7 1;
zz 2 10 0 1 1000000000000000 (0) (0 # 1) 7 1;
zz 2 10 0 1 1000000000000000000 (0) (0 # 1) 7 1;
zz 2 10 0 1 1000000000000000000000 (0) (0 # 1) 7 1;
zz 2 10 0 1 1000000000000000000000000 (0) (0 # 1) 7 1;
zz 2 10 0 1 1000000000000000000000000000 (0) (0 # 1) 7 1;
zz 2 10 0 1 1000000000000000000000000000000 (0) (0 # 1) 7 1;
zz 2 10 0 1 1000000000000000000000000000000000 (0) (0 # 1) 7 1;
zz 2 0 0 473176473 16000000000000 (0) (0 # 1) 5 1;
zz 2 1 0 473176473 16000000000000 (0) (0 # 1) 5 1;
zz 2 1 0 473176473 16000000000000 (0) (0 # 1) 5 1;
zz 2 1 0 473176473 16000000000000 (0) (0 # 1) 5 1;
zz 2 1 0 473176473 16000000000000 (0) (0 # 1) 5 1;
zz 2 1 8 473176473 4000000000000 (0) (0 # 1) 5 1;
zz 2 2 0 473176473 4000000000000 (0) (0 # 1) 5 1;
zz 2 2 0 473176473 4000000000000 (0) (0 # 1) 5 1;
zz 2 2 0 473176473 4000000000000 (0) (0 # 1) 5 1;
zz 2 2 0 473176473 4000000000000 (0) (0 # 1) 5 1;
zz 2 2 8 473176473 1000000000000 (0) (0 # 1) 5 1;
zz 2 3 0 473176473 1000000000000 (0) (0 # 1) 5 1;
zz 2 3 0 473176473 1000000000000 (0) (0 # 1) 5 1;
zz 2 3 0 473176473 1000000000000 (0) (0 # 1) 5 1;
zz 2 3 0 473176473 1000000000000 (0) (0 # 1) 5 1;
zz 2 2 9 473176473 500000000000 (0) (0 # 1) 5 1;
zz 2 3 0 473176473 500000000000 (0) (0 # 1) 5 1;
zz 2 3 0 473176473 500000000000 (0) (0 # 1) 5 1;
zz 2 3 0 473176473 500000000000 (0) (0 # 1) 5 1;
zz 2 3 0 473176473 500000000000 (0) (0 # 1) 5 1;
zz 2 1 11 473176473 125000000000 (0) (0 # 1) 5 1;
zz 2 2 0 473176473 125000000000 (0) (0 # 1) 5 1;
zz 2 2 0 473176473 125000000000 (0) (0 # 1) 5 1;
zz 2 2 0 250000 66043047 (0) (0 # 1) 6 1;
zz 2 2 0 473176473 125000000000 (0) (0 # 1) 5 1;
zz 2 2 0 473176473 125000000000 (0) (0 # 1) 5 1;
zz 2 2 0 473176473 125000000000 (0) (0 # 1) 5 1;
zz 2 9 12 454609 100000000 (0) (0 # 1) 7 1;
zz 2 10 0 454609 100000000 (0) (0 # 1) 7 1;
zz 2 10 0 454609 100000000 (0) (0 # 1) 7 1;
zz 2 10 0 454609 100000000 (0) (0 # 1) 7 1;
zz 2 10 0 454609 100000000 (0) (0 # 1) 7 1;
zz 2 10 0 454609 100000000 (0) (0 # 1) 7 1;
zz 2 10 8 454609 16000000000 (0) (0 # 1) 7 2;
zz 2 11 0 454609 16000000000 (0) (0 # 1) 7 2;
zz 2 11 0 454609 16000000000 (0) (0 # 1) 7 2;
zz 2 11 0 454609 16000000000 (0) (0 # 1) 7 2;
zz 2 11 7 454609 4000000000 (0) (0 # 1) 7 3;
zz 2 12 0 454609 4000000000 (0) (0 # 1) 7 3;
zz 2 12 0 454609 4000000000 (0) (0 # 1) 7 3;
zz 2 11 8 454609 800000000 (0) (0 # 1) 7 4;
zz 2 12 0 454609 800000000 (0) (0 # 1) 7 4;
zz 2 12 0 454609 800000000 (0) (0 # 1) 7 4;
zz 2 10 8 454609 400000000 (0) (0 # 1) 7 5;
zz 2 11 0 454609 400000000 (0) (0 # 1) 7 5;
zz 2 11 0 454609 400000000 (0) (0 # 1) 7 5;
zz 2 8 7 1 1000 (0) (0 # 1) 7 1;
zz 2 9 0 1 1000 (0) (0 # 1) 7 1;
zz 2 9 0 1 1000 (0) (0 # 1) 7 1;
zz 2 8 2 1 1000000 (0) (0 # 1) 7 1;
zz 2 9 0 1 1000000 (0) (0 # 1) 7 1;
zz 2 7 2 1 1000000 (0) (0 # 1) 7 1;
zz 2 11 0 1 100000 (0) (0 # 1) 7 1;
zz 2 12 0 1 100000 (0) (0 # 1) 7 1;
zz 2 11 0 1 10000 (0) (0 # 1) 7 1;
zz 2 12 0 1 10000 (0) (0 # 1) 7 1;
zz 2 4 9 1 1 (0) (0 # 1) 8 1;
zz 2 5 0 1 1 (0) (0 # 1) 8 1;
zz 2 4 12 1 1 (0) (0 # 1) 9 1;
zz 2 5 0 1 1 (0) (0 # 1) 9 1;
zz 2 8 0 1 1000000 (0) (0 # 1) 7 1;
zz 2 8 0 1 1000000 (0) (0 # 1) 7 1;
zz 2 9 0 1 1000000 (0) (0 # 1) 7 1;
zz 2 9 0 1 1000000 (0) (0 # 1) 7 1;
zz 2 9 0 1 1000000 (0) (0 # 1) 7 1;
zz 2 5 11 1 1 (-1) (0 # 1) 9 1;
zz 2 6 0 1 1 (-1) (0 # 1) 9 1;
zz 2 6 0 1 1 (-1) (0 # 1) 9 1;
z 4 0 0 1 1;
z 4 1 0 1 1;
z 4 1 0 1 1;
z 4 1 0 1 1;
zz 2 3 10 2048383 125000000000000000000 (0) (0 # 1) 10 1;
zz 2 4 0 2048383 125000000000000000000 (0) (0 # 1) 10 1;
zz 2 4 0 2048383 125000000000000000000 (0) (0 # 1) 10 1;
zz 2 4 0 2048383 125000000000000000000 (0) (0 # 1) 10 1;
zz 2 4 0 2048383 125000000000000000000 (0) (0 # 1) 10 1;
zz 2 3 10 2048383 125000000000000 (0) (0 # 1) 10 1;
zz 2 4 0 2048383 125000000000000 (0) (0 # 1) 10 1;
zz 2 4 0 2048383 125000000000000 (0) (0 # 1) 10 1;
zz 2 4 0 2048383 125000000000000 (0) (0 # 1) 10 1;
zz 2 4 0 2048383 125000000000000 (0) (0 # 1) 10 1;
zz 2 2 13 2048383 125000000000 (0) (0 # 1) 10 1;
zz 2 3 0 2048383 125000000000 (0) (0 # 1) 10 1;
zz 2 3 0 2048383 125000000000 (0) (0 # 1) 10 1;
zz 2 3 0 2048383 125000000000 (0) (0 # 1) 10 1;
zz 2 3 0 2048383 125000000000 (0) (0 # 1) 10 1;
zz 2 3 0 2048383 125000000000 (0) (0 # 1) 10 1;
zz 2 3 18 55306341 1953125000 (0) (0 # 1) 11 1;
zz 2 4 0 55306341 1953125000 (0) (0 # 1) 11 1;
zz 2 4 0 55306341 1953125000 (0) (0 # 1) 11 1;
zz 2 4 0 55306341 1953125000 (0) (0 # 1) 11 1;
zz 2 4 0 55306341 1953125000 (0) (0 # 1) 12 1;
zz 2 4 0 55306341 1953125000 (0) (0 # 1) 11 1;
zz 2 4 0 55306341 1953125000 (0) (0 # 1) 11 1;
zz 2 4 0 55306341 1953125000 (0) (0 # 1) 11 1;
zz 2 4 0 55306341 1953125000 (0) (0 # 1) 11 1;
zz 2 4 0 55306341 1953125000 (0) (0 # 1) 11 1;
zz 2 4 0 55306341 1953125000 (0) (0 # 1) 11 1;
zz 2 4 0 55306341 1953125000 (0) (0 # 1) 11 1;
zz 2 4 9 1493271207 1953125000 (0) (0 # 1) 11 1;
zz 2 5 0 1493271207 1953125000 (0) (0 # 1) 11 1;
zz 2 5 0 1493271207 1953125000 (0) (0 # 1) 11 1;
zz 2 5 0 1493271207 1953125000 (0) (0 # 1) 11 1;
zz 2 5 10 1987543976517 244140625 (0) (0 # 1) 11 1;
zz 2 6 0 1987543976517 244140625 (0) (0 # 1) 11 1;
zz 2 6 0 1987543976517 244140625 (0) (0 # 1) 11 1;
zz 2 6 0 1987543976517 244140625 (0) (0 # 1) 11 1;
zz 2 6 0 1987543976517 244140625 (0) (0 # 1) 11 1;
z 5 0 0 1 1;
z 5 1 0 1 1;
z 5 1 0 1 1;
z 5 1 0 1 1;
z 5 1 0 1 1;
zz 2 6 10 15900351812136 1953125 (0) (0 # 1) 11 1;
zz 2 7 0 15900351812136 1953125 (0) (0 # 1) 11 1;
zz 2 7 0 15900351812136 1953125 (0) (0 # 1) 11 1;
zz 2 7 0 15900351812136 1953125 (0) (0 # 1) 11 1;
zz 2 7 0 15900351812136 1953125 (0) (0 # 1) 11 1;
zz 2 7 10 8140980127813632 1953125 (0) (0 # 1) 11 1;
zz 2 8 0 8140980127813632 1953125 (0) (0 # 1) 11 1;
zz 2 8 0 8140980127813632 1953125 (0) (0 # 1) 11 1;
zz 2 8 0 8140980127813632 1953125 (0) (0 # 1) 11 1;
zz 2 8 0 8140980127813632 1953125 (0) (0 # 1) 11 1;
zz 2 8 10 219806463450968064 1953125 (0) (0 # 1) 11 1;
zz 2 9 0 219806463450968064 1953125 (0) (0 # 1) 11 1;
zz 2 9 0 219806463450968064 1953125 (0) (0 # 1) 11 1;
zz 2 9 0 219806463450968064 1953125 (0) (0 # 1) 11 1;
zz 2 9 0 219806463450968064 1953125 (0) (0 # 1) 11 1;
zz 2 4 9 55306341 1953125000 (0) (0 # 1) 13 1;
zz 2 5 0 55306341 1953125000 (0) (0 # 1) 13 1;
zz 2 5 1 500000 3144907 (0) (0 # 1) 14 1;
zz 2 6 0 500000 3144907 (0) (0 # 1) 14 1;
zz 2 4 1 500000 3144907 (0) (0 # 1) 14 1;
zz 2 4 1 500000 3144907 (0) (0 # 1) 14 1;
zz 2 6 8 500000 3144907 (-1) (0 # 1) 9 1;
zz 2 7 0 500000 3144907 (-1) (0 # 1) 9 1;
zz 2 7 0 500000 3144907 (-1) (0 # 1) 9 1;
zz 2 3 11 500000 3144907 (0) (0 # 1) 14 1;
zz 2 4 0 500000 3144907 (0) (0 # 1) 14 1;
zz 2 4 0 500000 3144907 (0) (0 # 1) 14 1;
zz 2 4 0 500000 3144907 (0) (0 # 1) 14 1;
zz 2 8 0 1 1000000 (0) (0 # 1) 7 1;
zz 2 5 0 1 1 (0) (0 # 1) 8 1;
zz 2 5 0 1 1 (0) (0 # 1) 9 1;
zz 2 9 0 1 1000000 (0) (0 # 1) 7 1;
zz 2 6 0 1 1 (-1) (0 # 1) 9 1;
z 4 1 0 1 1;
zz 2 4 0 2048383 125000000000000000000 (0) (0 # 1) 10 1;
zz 2 4 0 2048383 125000000000000 (0) (0 # 1) 10 1;
zz 2 3 0 2048383 125000000000 (0) (0 # 1) 10 1;
zz 2 4 0 2048383 125000000000 (0) (0 # 1) 10 1;
zz 2 4 0 55306341 1953125000 (0) (0 # 1) 11 1;
zz 2 5 0 55306341 1953125000 (0) (0 # 1) 11 1;
zz 2 5 0 55306341 1953125000 (0) (0 # 1) 11 1;
zz 2 5 0 55306341 1953125000 (0) (0 # 1) 11 1;
zz 2 5 0 55306341 1953125000 (0) (0 # 1) 11 1;
zz 2 5 0 55306341 1953125000 (0) (0 # 1) 11 1;
zz 2 5 0 1493271207 1953125000 (0) (0 # 1) 11 1;
zz 2 6 0 1987543976517 244140625 (0) (0 # 1) 11 1;
z 5 1 0 1 1;
zz 2 7 0 15900351812136 1953125 (0) (0 # 1) 11 1;
zz 2 8 0 8140980127813632 1953125 (0) (0 # 1) 11 1;
zz 2 9 0 219806463450968064 1953125 (0) (0 # 1) 11 1;
zz 2 5 0 55306341 1953125000 (0) (0 # 1) 13 1;
zz 2 5 0 500000 3144907 (0) (0 # 1) 14 1;
zz 2 7 0 500000 3144907 (-1) (0 # 1) 9 1;
zz 2 4 0 500000 3144907 (0) (0 # 1) 14 1;
zz 2 8 0 1 1000000 (0) (0 # 1) 7 1;
zz 2 5 0 1 1 (0) (0 # 1) 8 1;
zz 2 5 0 1 1 (0) (0 # 1) 9 1;
zz 2 9 0 1 1000000 (0) (0 # 1) 7 1;
zz 2 6 0 1 1 (-1) (0 # 1) 9 1;
z 4 1 0 1 1;
zz 2 4 0 2048383 125000000000000000000 (0) (0 # 1) 10 1;
zz 2 4 0 2048383 125000000000000 (0) (0 # 1) 10 1;
zz 2 3 0 2048383 125000000000 (0) (0 # 1) 10 1;
zz 2 4 0 2048383 125000000000 (0) (0 # 1) 10 1;
zz 2 4 0 55306341 1953125000 (0) (0 # 1) 11 1;
zz 2 5 0 55306341 1953125000 (0) (0 # 1) 11 1;
zz 2 5 0 55306341 1953125000 (0) (0 # 1) 11 1;
zz 2 5 0 55306341 1953125000 (0) (0 # 1) 11 1;
zz 2 5 0 55306341 1953125000 (0) (0 # 1) 11 1;
zz 2 5 0 55306341 1953125000 (0) (0 # 1) 11 1;
zz 2 5 0 1493271207 1953125000 (0) (0 # 1) 11 1;
zz 2 6 0 1987543976517 244140625 (0) (0 # 1) 11 1;
z 5 1 0 1 1;
zz 2 7 0 15900351812136 1953125 (0) (0 # 1) 11 1;
zz 2 8 0 8140980127813632 1953125 (0) (0 # 1) 11 1;
zz 2 9 0 219806463450968064 1953125 (0) (0 # 1) 11 1;
zz 2 5 0 55306341 1953125000 (0) (0 # 1) 13 1;
zz 2 5 0 500000 3144907 (0) (0 # 1) 14 1;
zz 2 7 0 500000 3144907 (-1) (0 # 1) 9 1;
zz 2 4 0 500000 3144907 (0) (0 # 1) 14 1;
zz 2 6 0 1 1 (0) (0 # 1) 9 1;
zz 2 6 0 1 1 (0) (0 # 1) 9 1;
zz 2 6 0 1 1 (0) (0 # 1) 9 1;
z 3 1 0 1 1;
zz 2 7 0 1 1 (-1) (0 # 1) 9 1;
zz 2 7 0 1 1 (-1) (0 # 1) 9 1;
zz 2 7 0 1000 1 (0) (0 # 1) 9 1;
z 3 2 0 1000 1;
zz 2 7 0 1000000 1 (0) (0 # 1) 9 1;
z 3 2 0 1000000 1;
zz 2 9 0 1 1000 (0) (0 # 1) 7 1;
zz 2 9 0 1 1000000 (0) (0 # 1) 7 1;
zz 2 12 0 1 100000 (0) (0 # 1) 7 1;
zz 2 12 0 1 10000 (0) (0 # 1) 7 1;
zz 2 5 0 1 1 (0) (0 # 1) 8 1;
zz 2 5 0 1 1 (0) (0 # 1) 9 1;
zz 2 8 0 1 1000000 (0) (0 # 1) 7 1;
zz 2 9 0 1 1000000 (0) (0 # 1) 7 1;
zz 2 6 0 1 1 (-1) (0 # 1) 9 1;
z 4 1 0 1 1;
zz 2 4 0 2048383 125000000000000000000 (0) (0 # 1) 10 1;
zz 2 4 0 2048383 125000000000000 (0) (0 # 1) 10 1;
zz 2 3 0 2048383 125000000000 (0) (0 # 1) 10 1;
zz 2 4 0 55306341 1953125000 (0) (0 # 1) 11 1;
zz 2 5 0 1493271207 1953125000 (0) (0 # 1) 11 1;
zz 2 6 0 1987543976517 244140625 (0) (0 # 1) 11 1;
z 5 1 0 1 1;
zz 2 7 0 15900351812136 1953125 (0) (0 # 1) 11 1;
zz 2 8 0 8140980127813632 1953125 (0) (0 # 1) 11 1;
zz 2 9 0 219806463450968064 1953125 (0) (0 # 1) 11 1;
zz 2 5 0 55306341 1953125000 (0) (0 # 1) 13 1;
zz 2 6 0 500000 3144907 (0) (0 # 1) 14 1;
zz 2 7 0 500000 3144907 (-1) (0 # 1) 9 1;
zz 2 4 0 500000 3144907 (0) (0 # 1) 14 1;
zz 2 1 0 473176473 16000000000000 (0) (0 # 1) 5 1;
zz 2 2 0 473176473 4000000000000 (0) (0 # 1) 5 1;
zz 2 3 0 473176473 1000000000000 (0) (0 # 1) 5 1;
zz 2 3 0 473176473 500000000000 (0) (0 # 1) 5 1;
zz 2 2 0 473176473 125000000000 (0) (0 # 1) 5 1;
zz 2 10 0 454609 100000000 (0) (0 # 1) 7 1;
zz 2 11 0 454609 16000000000 (0) (0 # 1) 7 2;
zz 2 12 0 454609 4000000000 (0) (0 # 1) 7 3;
zz 2 12 0 454609 800000000 (0) (0 # 1) 7 4;
zz 2 11 0 454609 400000000 (0) (0 # 1) 7 5;
zz 2 2 0 473176473 16000000000000 (0) (0 # 1) 5 1;
zz 2 2 0 473176473 16000000000000 (0) (0 # 1) 5 1;
zz 2 2 0 473176473 16000000000000 (0) (0 # 1) 5 1;
zz 2 3 0 473176473 125000000000 (0) (0 # 1) 5 1;
zz 2 11 0 454609 100000000 (0) (0 # 1) 7 1;
zz 2 3 0 473176473 125000000000 (0) (0 # 1) 5 1;
zz 2 5 0 500000 3144907 (0) (0 # 1) 14 1;
z 6 0 0 1 1;
z 6 1 0 1 1;
zz 2 3 0 473176473 125000000000 (0) (0 # 1) 5 1;
zz 2 11 0 454609 100000000 (0) (0 # 1) 7 1;
z 7 0 0 1 1;
z 7 1 0 1 1;
z 8 0 0 1 1;
z 8 1 0 1 1;
zz 2 10 0 1 1000 (0) (0 # 1) 7 1;
zz 2 10 0 1 1000000 (0) (0 # 1) 7 1;
zz 2 13 0 1 100000 (0) (0 # 1) 7 1;
zz 2 13 0 1 10000 (0) (0 # 1) 7 1;
zz 2 9 0 1 1000 (0) (0 # 1) 7 1;
zz 2 9 0 1 1000000 (0) (0 # 1) 7 1;
zz 2 12 0 1 100000 (0) (0 # 1) 7 1;
zz 2 12 0 1 10000 (0) (0 # 1) 7 1;
zz 2 5 0 1 1 (0) (0 # 1) 8 1;
zz 2 5 0 1 1 (0) (0 # 1) 9 1;
zz 2 8 0 1 1000000 (0) (0 # 1) 7 1;
zz 2 9 0 1 1000000 (0) (0 # 1) 7 1;
zz 2 6 0 1 1 (-1) (0 # 1) 9 1;
z 4 1 0 1 1;
zz 2 4 0 2048383 125000000000000000000 (0) (0 # 1) 10 1;
zz 2 4 0 2048383 125000000000000 (0) (0 # 1) 10 1;
zz 2 3 0 2048383 125000000000 (0) (0 # 1) 10 1;
zz 2 4 0 55306341 1953125000 (0) (0 # 1) 11 1;
zz 2 5 0 1493271207 1953125000 (0) (0 # 1) 11 1;
zz 2 6 0 1987543976517 244140625 (0) (0 # 1) 11 1;
z 5 1 0 1 1;
zz 2 7 0 15900351812136 1953125 (0) (0 # 1) 11 1;
zz 2 8 0 8140980127813632 1953125 (0) (0 # 1) 11 1;
zz 2 9 0 219806463450968064 1953125 (0) (0 # 1) 11 1;
zz 2 5 0 55306341 1953125000 (0) (0 # 1) 13 1;
zz 2 6 0 500000 3144907 (0) (0 # 1) 14 1;
zz 2 7 0 500000 3144907 (-1) (0 # 1) 9 1;
zz 2 4 0 500000 3144907 (0) (0 # 1) 14 1;
zz 2 1 0 473176473 16000000000000 (0) (0 # 1) 5 1;
zz 2 2 0 473176473 4000000000000 (0) (0 # 1) 5 1;
zz 2 3 0 473176473 1000000000000 (0) (0 # 1) 5 1;
zz 2 3 0 473176473 500000000000 (0) (0 # 1) 5 1;
zz 2 2 0 473176473 125000000000 (0) (0 # 1) 5 1;
zz 2 10 0 454609 100000000 (0) (0 # 1) 7 1;
zz 2 11 0 454609 16000000000 (0) (0 # 1) 7 2;
zz 2 12 0 454609 4000000000 (0) (0 # 1) 7 3;
zz 2 12 0 454609 800000000 (0) (0 # 1) 7 4;
zz 2 11 0 454609 400000000 (0) (0 # 1) 7 5;
zz 2 2 0 473176473 16000000000000 (0) (0 # 1) 5 1;
zz 2 2 0 473176473 16000000000000 (0) (0 # 1) 5 1;
zz 2 2 0 473176473 16000000000000 (0) (0 # 1) 5 1;
zz 2 3 0 473176473 125000000000 (0) (0 # 1) 5 1;
zz 2 11 0 454609 100000000 (0) (0 # 1) 7 1;
zz 2 3 0 473176473 125000000000 (0) (0 # 1) 5 1;
zz 2 5 0 500000 3144907 (0) (0 # 1) 14 1;
z 6 1 0 1 1;
zz 2 3 0 473176473 125000000000 (0) (0 # 1) 5 1;
zz 2 11 0 454609 100000000 (0) (0 # 1) 7 1;
z 7 1 0 1 1;
z 8 1 0 1 1;
zz 2 10 0 1 1000 (0) (0 # 1) 7 1;
zz 2 10 0 1 1000000 (0) (0 # 1) 7 1;
zz 2 13 0 1 100000 (0) (0 # 1) 7 1;
zz 2 13 0 1 10000 (0) (0 # 1) 7 1;
zz 2 2 0 473176473 125000000000 (0) (0 # 1) 5 1;
zz 2 10 0 454609 100000000 (0) (0 # 1) 7 1;
zz 2 11 0 454609 16000000000 (0) (0 # 1) 7 2;
zz 2 12 0 454609 4000000000 (0) (0 # 1) 7 3;
zz 2 12 0 454609 800000000 (0) (0 # 1) 7 4;
zz 2 11 0 454609 400000000 (0) (0 # 1) 7 5;
zz 2 3 0 473176473 125000000000 (0) (0 # 1) 5 1;
zz 2 11 0 454609 100000000 (0) (0 # 1) 7 1;
z 7 1 0 1 1;
z 8 1 0 1 1;
zz 2 9 0 1 1000 (0) (0 # 1) 7 1;
zz 2 9 0 1 1000000 (0) (0 # 1) 7 1;
zz 2 12 0 1 100000 (0) (0 # 1) 7 1;
zz 2 12 0 1 10000 (0) (0 # 1) 7 1;
zz 2 5 0 1 1 (0) (0 # 1) 8 1;
zz 2 5 0 1 1 (0) (0 # 1) 9 1;
zz 2 8 0 1 1000000 (0) (0 # 1) 7 1;
zz 2 9 0 1 1000000 (0) (0 # 1) 7 1;
zz 2 6 0 1 1 (-1) (0 # 1) 9 1;
z 4 1 0 1 1;
zz 2 4 0 2048383 125000000000000000000 (0) (0 # 1) 10 1;
zz 2 4 0 2048383 125000000000000 (0) (0 # 1) 10 1;
zz 2 3 0 2048383 125000000000 (0) (0 # 1) 10 1;
zz 2 4 0 55306341 1953125000 (0) (0 # 1) 11 1;
zz 2 5 0 1493271207 1953125000 (0) (0 # 1) 11 1;
zz 2 6 0 1987543976517 244140625 (0) (0 # 1) 11 1;
z 5 1 0 1 1;
zz 2 7 0 15900351812136 1953125 (0) (0 # 1) 11 1;
zz 2 8 0 8140980127813632 1953125 (0) (0 # 1) 11 1;
zz 2 9 0 219806463450968064 1953125 (0) (0 # 1) 11 1;
zz 2 5 0 55306341 1953125000 (0) (0 # 1) 13 1;
zz 2 6 0 500000 3144907 (0) (0 # 1) 14 1;
zz 2 7 0 500000 3144907 (-1) (0 # 1) 9 1;
zz 2 4 0 500000 3144907 (0) (0 # 1) 14 1;
zz 2 1 0 473176473 16000000000000 (0) (0 # 1) 5 1;
zz 2 2 0 473176473 4000000000000 (0) (0 # 1) 5 1;
zz 2 3 0 473176473 1000000000000 (0) (0 # 1) 5 1;
zz 2 3 0 473176473 500000000000 (0) (0 # 1) 5 1;
zz 2 2 0 473176473 125000000000 (0) (0 # 1) 5 1;
zz 2 10 0 454609 100000000 (0) (0 # 1) 7 1;
zz 2 11 0 454609 16000000000 (0) (0 # 1) 7 2;
zz 2 12 0 454609 4000000000 (0) (0 # 1) 7 3;
zz 2 12 0 454609 800000000 (0) (0 # 1) 7 4;
zz 2 11 0 454609 400000000 (0) (0 # 1) 7 5;
zz 2 2 0 473176473 16000000000000 (0) (0 # 1) 5 1;
zz 2 2 0 473176473 16000000000000 (0) (0 # 1) 5 1;
zz 2 2 0 473176473 16000000000000 (0) (0 # 1) 5 1;
zz 2 3 0 473176473 125000000000 (0) (0 # 1) 5 1;
zz 2 11 0 454609 100000000 (0) (0 # 1) 7 1;
zz 2 3 0 473176473 125000000000 (0) (0 # 1) 5 1;
zz 2 5 0 500000 3144907 (0) (0 # 1) 14 1;
z 6 1 0 1 1;
zz 2 3 0 473176473 125000000000 (0) (0 # 1) 5 1;
zz 2 11 0 454609 100000000 (0) (0 # 1) 7 1;
z 7 1 0 1 1;
z 8 1 0 1 1;
zz 2 10 0 1 1000 (0) (0 # 1) 7 1;
zz 2 10 0 1 1000000 (0) (0 # 1) 7 1;
zz 2 13 0 1 100000 (0) (0 # 1) 7 1;
zz 2 13 0 1 10000 (0) (0 # 1) 7 1;
zz 2 2 0 473176473 125000000000 (0) (0 # 1) 5 1;
zz 2 10 0 454609 100000000 (0) (0 # 1) 7 1;
zz 2 11 0 454609 16000000000 (0) (0 # 1) 7 2;
zz 2 12 0 454609 4000000000 (0) (0 # 1) 7 3;
zz 2 12 0 454609 800000000 (0) (0 # 1) 7 4;
zz 2 11 0 454609 400000000 (0) (0 # 1) 7 5;
zz 2 3 0 473176473 125000000000 (0) (0 # 1) 5 1;
zz 2 11 0 454609 100000000 (0) (0 # 1) 7 1;
z 7 1 0 1 1;
z 8 1 0 1 1;
zz 2 6 0 55306341 1953125 (0) (0 # 1) 13 1;
zz 2 6 0 442450728 15625 (0) (0 # 1) 13 1;
zz 2 6 0 3539605824 125 (0) (0 # 1) 13 1;
zz 2 6 0 28316846592 1 (0) (0 # 1) 13 1;
zz 2 5 0 55306341 1953125 (0) (0 # 1) 12 1;
zz 2 5 0 442450728 15625 (0) (0 # 1) 12 1;
zz 2 5 0 3539605824 125 (0) (0 # 1) 12 1;
zz 2 5 0 28316846592 1 (0) (0 # 1) 12 1;
zz 2 5 0 55306341 1953125 (0) (0 # 1) 11 1;
zz 2 5 0 442450728 15625 (0) (0 # 1) 11 1;
zz 2 5 0 3539605824 125 (0) (0 # 1) 11 1;
zz 2 5 0 28316846592 1 (0) (0 # 1) 11 1;
zz 2 5 0 55306341 1953125 (0) (0 # 1) 11 1;
zz 2 5 0 442450728 15625 (0) (0 # 1) 11 1;
zz 2 5 0 3539605824 125 (0) (0 # 1) 11 1;
zz 2 5 0 28316846592 1 (0) (0 # 1) 11 1;
zz 2 5 0 500000000 3144907 (0) (0 # 1) 14 1;
zz 2 5 0 500000000000 3144907 (0) (0 # 1) 14 1;
zz 2 5 0 500000000000000 3144907 (0) (0 # 1) 14 1;
zz 2 5 0 500000000000000000 3144907 (0) (0 # 1) 14 1;
zz 2 7 0 500000000 3144907 (0) (0 # 1) 14 1;
zz 2 7 0 500000000000 3144907 (0) (0 # 1) 14 1;
zz 2 7 0 500000000000000 3144907 (0) (0 # 1) 14 1;
zz 2 7 0 500000000000000000 3144907 (0) (0 # 1) 14 1;
zz 2 8 0 500000000 3144907 (-1) (0 # 1) 9 1;
zz 2 8 0 500000000000 3144907 (-1) (0 # 1) 9 1;
zz 2 8 0 500000000000000 3144907 (-1) (0 # 1) 9 1;
zz 2 8 0 500000000000000000 3144907 (-1) (0 # 1) 9 1;
zz 2 8 0 500000000 3144907 (-1) (0 # 1) 9 1;
zz 2 8 0 500000000000 3144907 (-1) (0 # 1) 9 1;
zz 2 8 0 500000000000000 3144907 (-1) (0 # 1) 9 1;
zz 2 8 0 500000000000000000 3144907 (-1) (0 # 1) 9 1;
zz 2 5 0 500000000 3144907 (0) (0 # 1) 14 1;
zz 2 5 0 500000000000 3144907 (0) (0 # 1) 14 1;
zz 2 5 0 500000000000000 3144907 (0) (0 # 1) 14 1;
zz 2 5 0 500000000000000000 3144907 (0) (0 # 1) 14 1;
zz 2 5 0 500000000 3144907 (0) (0 # 1) 14 1;
zz 2 5 0 500000000000 3144907 (0) (0 # 1) 14 1;
zz 2 5 0 500000000000000 3144907 (0) (0 # 1) 14 1;
zz 2 5 0 500000000000000000 3144907 (0) (0 # 1) 14 1;
zz 2 5 0 500000000 3144907 (0) (0 # 1) 14 1;
zz 2 5 0 500000000000 3144907 (0) (0 # 1) 14 1;
zz 2 5 0 500000000000000 3144907 (0) (0 # 1) 14 1;
zz 2 5 0 500000000000000000 3144907 (0) (0 # 1) 14 1;
zz 2 7 0 1000 1 (0) (0 # 1) 9 1;
zz 2 7 0 1000000 1 (0) (0 # 1) 9 1;
zz 2 7 0 1000000000 1 (0) (0 # 1) 9 1;
zz 2 8 0 1 1 (-1) (0 # 1) 9 1;
zz 2 7 0 1000 1 (0) (0 # 1) 9 1;
zz 2 7 0 1000000 1 (0) (0 # 1) 9 1;
zz 2 7 0 1000000000 1 (0) (0 # 1) 9 1;
zz 2 6 0 55306341 1953125000 (0) (0 # 1) 13 1;
zz 2 5 0 55306341 1953125000 (0) (0 # 1) 12 1;
zz 2 5 0 55306341 1953125000 (0) (0 # 1) 11 1;
zz 2 7 0 55306341 1953125 (0) (0 # 1) 13 1;
zz 2 7 0 442450728 15625 (0) (0 # 1) 13 1;
zz 2 7 0 3539605824 125 (0) (0 # 1) 13 1;
zz 2 7 0 28316846592 1 (0) (0 # 1) 13 1;
zz 2 6 0 55306341 1953125 (0) (0 # 1) 12 1;
zz 2 6 0 442450728 15625 (0) (0 # 1) 12 1;
zz 2 6 0 3539605824 125 (0) (0 # 1) 12 1;
zz 2 6 0 28316846592 1 (0) (0 # 1) 12 1;
zz 2 5 0 500000 3144907 (0) (0 # 1) 14 1;
zz 2 7 0 500000 3144907 (0) (0 # 1) 14 1;
zz 2 8 0 500000 3144907 (-1) (0 # 1) 9 1;
zz 2 8 0 500000 3144907 (-1) (0 # 1) 9 1;
zz 2 6 0 500000000 3144907 (0) (0 # 1) 14 1;
zz 2 6 0 500000000000 3144907 (0) (0 # 1) 14 1;
zz 2 6 0 500000000000000 3144907 (0) (0 # 1) 14 1;
zz 2 6 0 500000000000000000 3144907 (0) (0 # 1) 14 1;
zz 2 8 0 500000000 3144907 (0) (0 # 1) 14 1;
zz 2 8 0 500000000000 3144907 (0) (0 # 1) 14 1;
zz 2 9 0 500000000 3144907 (-1) (0 # 1) 9 1;
zz 2 9 0 500000000000 3144907 (-1) (0 # 1) 9 1;
zz 2 6 0 1 1 (0) (0 # 1) 1 1;
zz 2 6 0 1 1 (0) (0 # 1) 1 1;
zz 2 6 0 1 1 (0) (0 # 1) 1 1;
zz 2 6 0 1 1 (0) (0 # 1) 1 1;
zz 2 7 0 1 1000000 (0) (0 # 1) 2 1;
zz 2 7 0 1 1000000 (0) (0 # 1) 2 1;
zz 2 7 0 1 1000000 (0) (0 # 1) 2 1;
zz 2 7 0 1 1000000 (0) (0 # 1) 2 1;
zz 2 6 0 1493271207 1953125000 (0) (0 # 1) 11 1;
zz 2 6 0 1493271207 1953125000 (0) (0 # 1) 11 1;
zz 2 6 0 1493271207 1953125000 (0) (0 # 1) 11 1;
zz 2 6 0 1493271207 1953125000 (0) (0 # 1) 11 1;
zz 2 5 0 55306341 1953125000 (0) (0 # 1) 11 1;
zz 2 5 0 55306341 1953125000 (0) (0 # 1) 11 1;
zz 2 4 0 2048383 125000000000 (0) (0 # 1) 10 1;
zz 2 4 0 2048383 125000000000 (0) (0 # 1) 10 1;
z 9 1 6 1 1;
z 9 2 0 1 1;
z 9 2 0 1 1;
z 9 2 0 1 1;
z 9 3 1 30856804799935500 1;
z 9 2 2 149597870700 1;
z 9 3 0 149597870700 1;
z 9 2 3 157678841209680 1;
z 9 3 0 157678841209680 1;
z 9 3 0 157678841209680 1;
z 9 2 0 1 1;
z 9 3 0 1 1;
z 9 3 0 1 1;
z 9 3 0 1 1;
z 9 4 0 30856804799935500 1;
z 9 3 0 149597870700 1;
z 9 4 0 149597870700 1;
z 9 3 0 157678841209680 1;
z 9 4 0 157678841209680 1;
z 9 4 0 157678841209680 1;
z 9 3 0 1000000000000000000000000000000 1;
z 9 3 0 1000000000000000000000000000 1;
z 9 3 0 1000000000000000000000000 1;
z 9 3 0 1000000000000000000000 1;
z 9 3 0 1000000000000000000 1;
z 9 3 0 1000000000000000 1;
z 9 3 0 1000000000000 1;
z 9 3 0 1000000000 1;
z 9 3 0 1000000 1;
z 9 3 0 1000 1;
z 9 3 0 1000 1;
z 9 3 0 100 1;
z 9 3 0 10 1;
z 9 3 0 1 10;
z 9 3 0 1 100;
z 9 3 0 1 1000;
z 9 3 0 1 1000000;
z 9 3 0 1 1000000;
z 9 3 0 1 1000000000;
z 9 3 0 1 1000000000000;
z 9 3 0 1 1000000000000000;
z 9 3 0 1 1000000000000000000;
z 9 3 0 1 1000000000000000000000;
z 9 3 0 1 1000000000000000000000000;
z 9 3 0 1 1000000000000000000000000000;
z 9 3 0 1 1000000000000000000000000000000;
z 9 3 2 127 5000000;
z 9 4 0 127 5000000;
z 9 3 5 127 50000;
z 9 4 0 127 50000;
z 9 4 0 127 50000;
z 9 4 0 127 50000;
z 9 4 0 127 50000;
z 9 2 5 127 5000;
z 9 3 0 127 5000;
z 9 3 0 127 5000;
z 9 1 5 381 1250;
z 9 2 0 381 1250;
z 9 2 0 381 1250;
z 9 2 0 381 1250;
z 9 0 0 1143 1250;
z 9 1 0 1143 1250;
z 9 1 2 12573 625;
z 9 2 0 12573 625;
z 9 1 2 12573 2500;
z 9 2 0 12573 2500;
z 9 2 2 25146 125;
z 9 3 0 25146 125;
z 9 3 2 201168 125;
z 9 4 0 201168 125;
z 9 4 2 603504 125;
z 9 5 0 603504 125;
z 9 2 2 1852 1;
z 9 3 0 1852 1;
z 9 3 2 5556 1;
z 9 4 0 5556 1;
z 9 4 0 127 5000000;
z 9 4 0 127 50000;
z 9 3 0 127 5000;
z 9 2 0 381 1250;
z 9 1 0 1143 1250;
z 9 2 0 12573 625;
z 9 2 0 12573 2500;
z 9 3 0 25146 125;
z 9 4 0 201168 125;
z 9 5 0 603504 125;
z 9 3 0 1852 1;
z 9 4 0 5556 1;
z 9 3 0 381 1250;
z 9 4 0 127 5000;
z 9 3 0 381 1250;
z 9 5 0 127 50000;
z 9 5 0 127 50000;
z 9 5 0 127 50000;
z 10 3 3 1 1;
z 10 4 0 1 1;
z 10 4 0 1 1;
z 10 4 0 1 1;
z 10 2 2 1 1;
z 10 2 2 1 1;
z 10 4 0 1 1;
z 10 4 0 1 1;
z 10 4 0 1 1;
z 10 0 0 10000 1;
z 10 1 0 10000 1;
z 10 1 0 10000 1;
z 10 1 0 10000 1;
z 10 1 0 10000 1;
z 10 1 0 10000 1;
z 10 1 0 10000 1;
z 10 1 0 10000 1;
z 10 1 0 10000 1;
z 10 1 0 10000 1;
z 10 3 4 1000000 1;
z 10 4 0 1000000 1;
z 10 4 0 1000000 1;
z 10 4 0 1000000 1;
z 10 4 0 1000000 1;
z 10 2 2 1000000 1;
z 10 2 2 1000000 1;
z 10 4 0 1000000 1;
z 10 4 0 1000000 1;
z 10 4 0 1000000 1;
z 10 3 4 100000000 1;
z 10 4 0 100000000 1;
z 10 4 0 100000000 1;
z 10 4 0 100000000 1;
z 10 4 0 100000000 1;
z 10 2 2 100000000 1;
z 10 2 2 100000000 1;
z 10 4 0 100000000 1;
z 10 4 0 100000000 1;
z 10 4 0 100000000 1;
z 10 1 6 10000000000 1;
z 10 2 0 10000000000 1;
z 10 2 0 10000000000 1;
z 10 2 0 10000000000 1;
z 10 2 2 10000000000 1;
z 10 2 2 10000000000 1;
z 10 4 0 1 1;
z 10 5 0 1 1;
z 10 5 0 1 1;
z 10 5 0 1 1;
z 10 3 0 1 1;
z 10 3 0 1 1;
z 10 5 0 1 1;
z 10 5 0 1 1;
z 10 5 0 1 1;
z 10 1 0 10000 1;
z 10 2 0 10000 1;
z 10 2 0 10000 1;
z 10 2 0 10000 1;
z 10 2 0 10000 1;
z 10 2 0 10000 1;
z 10 2 0 10000 1;
z 10 2 0 10000 1;
z 10 2 0 10000 1;
z 10 2 0 10000 1;
z 10 4 0 1000000 1;
z 10 5 0 1000000 1;
z 10 5 0 1000000 1;
z 10 5 0 1000000 1;
z 10 5 0 1000000 1;
z 10 3 0 1000000 1;
z 10 3 0 1000000 1;
z 10 5 0 1000000 1;
z 10 5 0 1000000 1;
z 10 5 0 1000000 1;
z 10 4 0 100000000 1;
z 10 5 0 100000000 1;
z 10 5 0 100000000 1;
z 10 5 0 100000000 1;
z 10 5 0 100000000 1;
z 10 3 0 100000000 1;
z 10 3 0 100000000 1;
z 10 5 0 100000000 1;
z 10 5 0 100000000 1;
z 10 5 0 100000000 1;
z 10 2 0 10000000000 1;
z 10 3 0 10000000000 1;
z 10 3 0 10000000000 1;
z 10 3 0 10000000000 1;
z 10 3 0 10000000000 1;
z 10 3 0 10000000000 1;
z 10 2 0 10000000000000000000000000000000000000000000000000000000000000000 1;
z 10 2 0 10000000000000000000000000000000000000000000000000000000000 1;
z 10 2 0 10000000000000000000000000000000000000000000000000000 1;
z 10 2 0 10000000000000000000000000000000000000000000000 1;
z 10 2 0 10000000000000000000000000000000000000000 1;
z 10 2 0 10000000000000000000000000000000000 1;
z 10 2 0 10000000000000000000000000000 1;
z 10 2 0 10000000000000000000000 1;
z 10 2 0 10000000000000000 1;
z 10 2 0 10000000 1;
z 10 2 0 100 1;
z 10 2 0 1 100;
z 10 2 0 1 100000000;
z 10 2 0 1 100000000;
z 10 2 0 1 100000000000000;
z 10 2 0 1 100000000000000000000;
z 10 2 0 1 100000000000000000000000000;
z 10 2 0 1 100000000000000000000000000000000;
z 10 2 0 1 100000000000000000000000000000000000000;
z 10 2 0 1 100000000000000000000000000000000000000000000;
z 10 2 0 1 100000000000000000000000000000000000000000000000000;
z 10 2 0 1 100000000000000000000000000000000000000000000000000000000;
z 10 2 0 10000000000000000000000000000000000000000000000000000000000000000 1;
z 10 2 0 10000000000000000000000000000000000000000000000000000000000 1;
z 10 2 0 10000000000000000000000000000000000000000000000000000 1;
z 10 2 0 10000000000000000000000000000000000000000000000 1;
z 10 2 0 10000000000000000000000000000000000000000 1;
z 10 2 0 10000000000000000000000000000000000 1;
z 10 2 0 10000000000000000000000000000 1;
z 10 2 0 10000000000000000000000 1;
z 10 2 0 10000000000000000 1;
z 10 2 0 10000000 1;
z 10 2 0 100 1;
z 10 2 0 1 100;
z 10 2 0 1 100000000;
z 10 2 0 1 100000000;
z 10 2 0 1 100000000000000;
z 10 2 0 1 100000000000000000000;
z 10 2 0 1 100000000000000000000000000;
z 10 2 0 1 100000000000000000000000000000000;
z 10 2 0 1 100000000000000000000000000000000000000;
z 10 2 0 1 100000000000000000000000000000000000000000000;
z 10 2 0 1 100000000000000000000000000000000000000000000000000;
z 10 2 0 1 100000000000000000000000000000000000000000000000000000000;
z 10 3 1 5058570528 125;
z 10 3 8 16129 2500000000;
z 10 4 0 16129 2500000000;
z 10 4 0 16129 2500000000;
z 10 4 0 16129 2500000000;
z 10 4 0 16129 2500000000;
z 10 4 0 16129 2500000000;
z 10 4 0 16129 2500000000;
z 10 4 0 16129 2500000000;
z 10 3 8 16129 250000;
z 10 4 0 16129 250000;
z 10 4 0 16129 250000;
z 10 4 0 16129 250000;
z 10 4 0 16129 250000;
z 10 4 0 16129 250000;
z 10 4 0 16129 250000;
z 10 4 0 16129 250000;
z 10 2 10 16129 2500;
z 10 3 0 16129 2500;
z 10 3 0 16129 2500;
z 10 3 0 16129 2500;
z 10 3 0 16129 2500;
z 10 3 0 16129 2500;
z 10 3 0 16129 2500;
z 10 3 0 16129 2500;
z 10 1 9 580644 625;
z 10 2 0 580644 625;
z 10 2 0 580644 625;
z 10 2 0 580644 625;
z 10 2 0 580644 625;
z 10 2 0 580644 625;
z 10 2 0 580644 625;
z 10 2 0 580644 625;
z 10 2 8 5225796 625;
z 10 3 0 5225796 625;
z 10 3 0 5225796 625;
z 10 3 0 5225796 625;
z 10 3 0 5225796 625;
z 10 3 0 5225796 625;
z 10 3 0 5225796 625;
z 10 3 0 5225796 625;
z 10 3 8 2529285264 625;
z 10 4 0 2529285264 625;
z 10 4 0 2529285264 625;
z 10 4 0 2529285264 625;
z 10 4 0 2529285264 625;
z 10 4 0 2529285264 625;
z 10 4 0 2529285264 625;
z 10 4 0 2529285264 625;
z 10 3 8 158080329 625;
z 10 4 0 158080329 625;
z 10 4 0 158080329 625;
z 10 4 0 158080329 625;
z 10 4 0 158080329 625;
z 10 4 0 158080329 625;
z 10 4 0 158080329 625;
z 10 4 0 158080329 625;
z 10 4 8 10117141056 25;
z 10 5 0 10117141056 25;
z 10 5 0 10117141056 25;
z 10 5 0 10117141056 25;
z 10 5 0 10117141056 25;
z 10 5 0 10117141056 25;
z 10 5 0 10117141056 25;
z 10 5 0 10117141056 25;
z 10 4 8 647497027584 25;
z 10 5 0 647497027584 25;
z 10 5 0 647497027584 25;
z 10 5 0 647497027584 25;
z 10 5 0 647497027584 25;
z 10 5 0 647497027584 25;
z 10 5 0 647497027584 25;
z 10 5 0 647497027584 25;
z 10 5 8 5827473248256 25;
z 10 6 0 5827473248256 25;
z 10 6 0 5827473248256 25;
z 10 6 0 5827473248256 25;
z 10 6 0 5827473248256 25;
z 10 6 0 5827473248256 25;
z 10 6 0 5827473248256 25;
z 10 6 0 5827473248256 25;
z 10 4 0 5058570528 125;
z 10 4 0 16129 2500000000;
z 10 5 0 16129 2500000000;
z 10 5 0 16129 2500000000;
z 10 5 0 16129 2500000000;
z 10 5 0 16129 2500000000;
z 10 5 0 16129 2500000000;
z 10 5 0 16129 2500000000;
z 10 5 0 16129 2500000000;
z 10 4 0 16129 250000;
z 10 5 0 16129 250000;
z 10 5 0 16129 250000;
z 10 5 0 16129 250000;
z 10 5 0 16129 250000;
z 10 5 0 16129 250000;
z 10 5 0 16129 250000;
z 10 5 0 16129 250000;
z 10 3 0 16129 2500;
z 10 4 0 16129 2500;
z 10 4 0 16129 2500;
z 10 4 0 16129 2500;
z 10 4 0 16129 2500;
z 10 4 0 16129 2500;
z 10 4 0 16129 2500;
z 10 4 0 16129 2500;
z 10 2 0 580644 625;
z 10 3 0 580644 625;
z 10 3 0 580644 625;
z 10 3 0 580644 625;
z 10 3 0 580644 625;
z 10 3 0 580644 625;
z 10 3 0 580644 625;
z 10 3 0 580644 625;
z 10 3 0 5225796 625;
z 10 4 0 5225796 625;
z 10 4 0 5225796 625;
z 10 4 0 5225796 625;
z 10 4 0 5225796 625;
z 10 4 0 5225796 625;
z 10 4 0 5225796 625;
z 10 4 0 5225796 625;
z 10 4 0 2529285264 625;
z 10 5 0 2529285264 625;
z 10 5 0 2529285264 625;
z 10 5 0 2529285264 625;
z 10 5 0 2529285264 625;
z 10 5 0 2529285264 625;
z 10 5 0 2529285264 625;
z 10 5 0 2529285264 625;
z 10 4 0 158080329 625;
z 10 5 0 158080329 625;
z 10 5 0 158080329 625;
z 10 5 0 158080329 625;
z 10 5 0 158080329 625;
z 10 5 0 158080329 625;
z 10 5 0 158080329 625;
z 10 5 0 158080329 625;
z 10 5 0 10117141056 25;
z 10 6 0 10117141056 25;
z 10 6 0 10117141056 25;
z 10 6 0 10117141056 25;
z 10 6 0 10117141056 25;
z 10 6 0 10117141056 25;
z 10 6 0 10117141056 25;
z 10 6 0 10117141056 25;
z 10 5 0 647497027584 25;
z 10 6 0 647497027584 25;
z 10 6 0 647497027584 25;
z 10 6 0 647497027584 25;
z 10 6 0 647497027584 25;
z 10 6 0 647497027584 25;
z 10 6 0 647497027584 25;
z 10 6 0 647497027584 25;
z 10 6 0 5827473248256 25;
z 10 7 0 5827473248256 25;
z 10 7 0 5827473248256 25;
z 10 7 0 5827473248256 25;
z 10 7 0 5827473248256 25;
z 10 7 0 5827473248256 25;
z 10 7 0 5827473248256 25;
z 10 7 0 5827473248256 25;
zz 11 0 0 1 1 (0) (0 # 1) 18 0;
zz 11 1 0 1 1 (0) (0 # 1) 18 0;
zz 11 2 12 5000000000000000 725188688661 (0) (0 # 1) 15 0;
zz 11 3 0 5000000000000000 725188688661 (0) (0 # 1) 15 0;
zz 11 3 0 5000000000000000 725188688661 (0) (0 # 1) 15 0;
zz 11 3 0 5000000000000000 725188688661 (0) (0 # 1) 15 0;
zz 11 3 0 5000000000000000 725188688661 (0) (0 # 1) 15 0;
zz 11 3 0 5000000000000000 725188688661 (0) (0 # 1) 15 0;
zz 11 3 0 5000000000000000 725188688661 (0) (0 # 1) 15 0;
zz 11 3 0 5000000000000000 725188688661 (0) (0 # 1) 15 0;
zz 11 3 11 5000000000000000 725188688661 (0) (73479500000000000 # 725188688661) 16 0;
zz 11 3 3 5000000000000000 725188688661 (0) (0 # 1) 17 0;
zz 11 4 0 5000000000000000 725188688661 (0) (73479500000000000 # 725188688661) 16 0;
zz 11 4 0 5000000000000000 725188688661 (0) (73479500000000000 # 725188688661) 16 0;
zz 11 4 0 5000000000000000 725188688661 (0) (73479500000000000 # 725188688661) 16 0;
zz 11 4 0 5000000000000000 725188688661 (0) (73479500000000000 # 725188688661) 16 0;
zz 11 4 0 5000000000000000 725188688661 (0) (73479500000000000 # 725188688661) 16 0;
zz 11 4 0 5000000000000000 725188688661 (0) (73479500000000000 # 725188688661) 16 0;
zz 11 1 9 100000 1 (0) (0 # 1) 18 0;
zz 11 2 0 100000 1 (0) (0 # 1) 18 0;
zz 11 2 0 100000 1 (0) (0 # 1) 18 0;
zz 11 2 0 100000 1 (0) (0 # 1) 18 0;
zz 11 2 0 100000 1 (0) (0 # 1) 18 0;
zz 11 2 8 100000 1 (0) (101325 # 1) 19 0;
zz 11 2 29 100000 1 (0) (0 # 1) 20 0;
zz 11 3 0 100000 1 (0) (101325 # 1) 19 0;
zz 11 3 0 100000 1 (0) (101325 # 1) 19 0;
zz 11 3 0 100000 1 (0) (101325 # 1) 19 0;
zz 11 3 0 100000 1 (0) (101325 # 1) 19 0;
zz 11 1 3 101325 1 (0) (0 # 1) 18 0;
zz 11 2 0 101325 1 (0) (0 # 1) 18 0;
zz 11 2 0 101325 1 (0) (0 # 1) 18 0;
zz 11 1 0 1 1 (0) (0 # 1) 18 0;
zz 11 1 0 1 1 (0) (0 # 1) 18 0;
zz 11 2 4 1000 1 (0) (0 # 1) 18 0;
zz 11 2 2 1000 1 (0) (0 # 1) 18 0;
zz 11 3 0 1000 1 (0) (0 # 1) 18 0;
zz 11 3 0 1000 1 (0) (0 # 1) 18 0;
zz 11 2 2 100 1 (0) (0 # 1) 18 0;
zz 11 3 0 100 1 (0) (0 # 1) 18 0;
zz 11 2 2 20265 152 (0) (0 # 1) 18 0;
zz 11 3 0 20265 152 (0) (0 # 1) 18 0;
zz 11 4 0 20265 152 (0) (0 # 1) 18 0;
zz 11 2 6 196133 2 (0) (0 # 1) 18 0;
zz 11 3 0 196133 2 (0) (0 # 1) 18 0;
zz 11 3 0 196133 2 (0) (0 # 1) 18 0;
zz 11 3 0 196133 2 (0) (0 # 1) 18 0;
zz 11 3 0 5000000000000000 725188688661 (0) (0 # 1) 15 0;
zz 11 4 0 5000000000000000 725188688661 (0) (0 # 1) 15 0;
zz 11 4 0 5000000000000000 725188688661 (0) (0 # 1) 15 0;
zz 11 4 0 5000000000000000 725188688661 (0) (0 # 1) 15 0;
zz 11 4 0 5000000000000000 725188688661 (0) (73479500000000000 # 725188688661) 16 0;
zz 11 5 0 5000000000000000 725188688661 (0) (73479500000000000 # 725188688661) 16 0;
zz 11 5 0 5000000000000000 725188688661 (0) (73479500000000000 # 725188688661) 16 0;
zz 11 5 0 5000000000000000 725188688661 (0) (73479500000000000 # 725188688661) 16 0;
zz 11 2 0 100000 1 (0) (0 # 1) 18 0;
zz 11 3 0 100000 1 (0) (0 # 1) 18 0;
zz 11 3 0 100000 1 (0) (0 # 1) 18 0;
zz 11 3 0 100000 1 (0) (101325 # 1) 19 0;
zz 11 4 0 100000 1 (0) (101325 # 1) 19 0;
zz 11 4 0 20265 152 (0) (0 # 1) 18 0;
zz 11 3 0 196133 2 (0) (0 # 1) 18 0;
zz 11 3 0 5000000000000000 725188688661 (0) (0 # 1) 15 0;
zz 11 4 0 5000000000000000 725188688661 (0) (0 # 1) 15 0;
zz 11 4 0 5000000000000000 725188688661 (0) (0 # 1) 15 0;
zz 11 4 0 5000000000000000 725188688661 (0) (0 # 1) 15 0;
zz 11 4 0 5000000000000000 725188688661 (0) (73479500000000000 # 725188688661) 16 0;
zz 11 5 0 5000000000000000 725188688661 (0) (73479500000000000 # 725188688661) 16 0;
zz 11 5 0 5000000000000000 725188688661 (0) (73479500000000000 # 725188688661) 16 0;
zz 11 5 0 5000000000000000 725188688661 (0) (73479500000000000 # 725188688661) 16 0;
zz 11 2 0 100000 1 (0) (0 # 1) 18 0;
zz 11 3 0 100000 1 (0) (0 # 1) 18 0;
zz 11 3 0 100000 1 (0) (0 # 1) 18 0;
zz 11 3 0 100000 1 (0) (101325 # 1) 19 0;
zz 11 4 0 100000 1 (0) (101325 # 1) 19 0;
zz 11 4 0 20265 152 (0) (0 # 1) 18 0;
zz 11 3 0 196133 2 (0) (0 # 1) 18 0;
zz 11 3 0 5000000000000000 725188688661 (0) (0 # 1) 15 0;
zz 11 4 0 5000000000000000 725188688661 (0) (0 # 1) 15 0;
zz 11 4 0 5000000000000000 725188688661 (0) (0 # 1) 15 0;
zz 11 4 0 5000000000000000 725188688661 (0) (0 # 1) 15 0;
zz 11 4 0 5000000000000000 725188688661 (0) (0 # 1) 15 0;
zz 11 4 0 5000000000000000 725188688661 (0) (0 # 1) 15 0;
zz 11 4 0 5000000000000000 725188688661 (0) (0 # 1) 15 0;
zz 11 4 0 5000000000000000 725188688661 (0) (0 # 1) 15 0;
zz 11 4 0 5000000000000000 725188688661 (0) (73479500000000000 # 725188688661) 16 0;
zz 11 4 0 5000000000000000 725188688661 (0) (0 # 1) 17 0;
zz 11 5 0 5000000000000000 725188688661 (0) (73479500000000000 # 725188688661) 16 0;
zz 11 5 0 5000000000000000 725188688661 (0) (73479500000000000 # 725188688661) 16 0;
zz 11 5 0 5000000000000000 725188688661 (0) (73479500000000000 # 725188688661) 16 0;
zz 11 5 0 5000000000000000 725188688661 (0) (73479500000000000 # 725188688661) 16 0;
zz 11 5 0 5000000000000000 725188688661 (0) (73479500000000000 # 725188688661) 16 0;
zz 11 5 0 5000000000000000 725188688661 (0) (73479500000000000 # 725188688661) 16 0;
zz 11 2 0 100000 1 (0) (0 # 1) 18 0;
zz 11 3 0 100000 1 (0) (0 # 1) 18 0;
zz 11 3 0 100000 1 (0) (0 # 1) 18 0;
zz 11 3 0 100000 1 (0) (0 # 1) 18 0;
zz 11 3 0 100000 1 (0) (0 # 1) 18 0;
zz 11 3 0 100000 1 (0) (101325 # 1) 19 0;
zz 11 3 0 100000 1 (0) (0 # 1) 20 0;
zz 11 4 0 100000 1 (0) (101325 # 1) 19 0;
zz 11 4 0 100000 1 (0) (101325 # 1) 19 0;
zz 11 4 0 100000 1 (0) (101325 # 1) 19 0;
zz 11 4 0 100000 1 (0) (101325 # 1) 19 0;
zz 11 2 0 101325 1 (0) (0 # 1) 18 0;
zz 11 3 0 101325 1 (0) (0 # 1) 18 0;
zz 11 3 0 101325 1 (0) (0 # 1) 18 0;
zz 11 1 0 1 1 (0) (0 # 1) 18 0;
zz 11 2 0 1 1 (0) (0 # 1) 18 0;
zz 11 2 0 1 1 (0) (0 # 1) 18 0;
zz 11 3 1 1000 1 (0) (0 # 1) 18 0;
zz 11 4 0 1000 1 (0) (0 # 1) 18 0;
zz 11 3 0 100 1 (0) (0 # 1) 18 0;
zz 11 4 0 100 1 (0) (0 # 1) 18 0;
zz 11 3 0 20265 152 (0) (0 # 1) 18 0;
zz 11 4 0 20265 152 (0) (0 # 1) 18 0;
zz 11 5 0 20265 152 (0) (0 # 1) 18 0;
zz 11 3 0 196133 2 (0) (0 # 1) 18 0;
zz 11 4 0 196133 2 (0) (0 # 1) 18 0;
zz 11 4 0 196133 2 (0) (0 # 1) 18 0;
zz 11 2 0 1000000000000000000000000000000 1 (0) (0 # 1) 18 0;
zz 11 2 0 1000000000000000000000000000 1 (0) (0 # 1) 18 0;
zz 11 2 0 1000000000000000000000000 1 (0) (0 # 1) 18 0;
zz 11 2 0 1000000000000000000000 1 (0) (0 # 1) 18 0;
zz 11 2 0 1000000000000000000 1 (0) (0 # 1) 18 0;
zz 11 2 0 1000000000000000 1 (0) (0 # 1) 18 0;
zz 11 2 0 1000000000000 1 (0) (0 # 1) 18 0;
zz 11 2 0 1000000000 1 (0) (0 # 1) 18 0;
zz 11 2 0 1000000 1 (0) (0 # 1) 18 0;
zz 11 2 0 10 1 (0) (0 # 1) 18 0;
zz 11 2 0 1 10 (0) (0 # 1) 18 0;
zz 11 2 0 1 100 (0) (0 # 1) 18 0;
zz 11 2 0 1 1000 (0) (0 # 1) 18 0;
zz 11 2 0 1 1000000 (0) (0 # 1) 18 0;
zz 11 2 0 1 1000000 (0) (0 # 1) 18 0;
zz 11 2 0 1 1000000000 (0) (0 # 1) 18 0;
zz 11 2 0 1 1000000000000 (0) (0 # 1) 18 0;
zz 11 2 0 1 1000000000000000 (0) (0 # 1) 18 0;
zz 11 2 0 1 1000000000000000000 (0) (0 # 1) 18 0;
zz 11 2 0 1 1000000000000000000000 (0) (0 # 1) 18 0;
zz 11 2 0 1 1000000000000000000000000 (0) (0 # 1) 18 0;
zz 11 2 0 1 1000000000000000000000000000 (0) (0 # 1) 18 0;
zz 11 2 0 1 1000000000000000000000000000000 (0) (0 # 1) 18 0;
zz 11 3 0 100000000000000000000000000000000000 1 (0) (0 # 1) 18 0;
zz 11 3 0 100000000000000000000000000000000 1 (0) (0 # 1) 18 0;
zz 11 3 0 100000000000000000000000000000 1 (0) (0 # 1) 18 0;
zz 11 3 0 100000000000000000000000000 1 (0) (0 # 1) 18 0;
zz 11 3 0 100000000000000000000000 1 (0) (0 # 1) 18 0;
zz 11 3 0 100000000000000000000 1 (0) (0 # 1) 18 0;
zz 11 3 0 100000000000000000 1 (0) (0 # 1) 18 0;
zz 11 3 0 100000000000000 1 (0) (0 # 1) 18 0;
zz 11 3 0 100000000000 1 (0) (0 # 1) 18 0;
zz 11 3 0 100000000 1 (0) (0 # 1) 18 0;
zz 11 3 0 100000000 1 (0) (0 # 1) 18 0;
zz 11 3 0 10000000 1 (0) (0 # 1) 18 0;
zz 11 3 0 1000000 1 (0) (0 # 1) 18 0;
zz 11 3 0 10000 1 (0) (0 # 1) 18 0;
zz 11 3 0 1000 1 (0) (0 # 1) 18 0;
zz 11 3 0 100 1 (0) (0 # 1) 18 0;
zz 11 3 0 1 10 (0) (0 # 1) 18 0;
zz 11 3 0 1 10 (0) (0 # 1) 18 0;
zz 11 3 0 1 10000 (0) (0 # 1) 18 0;
zz 11 3 0 1 10000000 (0) (0 # 1) 18 0;
zz 11 3 0 1 10000000000 (0) (0 # 1) 18 0;
zz 11 3 0 1 10000000000000 (0) (0 # 1) 18 0;
zz 11 3 0 1 10000000000000000 (0) (0 # 1) 18 0;
zz 11 3 0 1 10000000000000000000 (0) (0 # 1) 18 0;
zz 11 3 0 1 10000000000000000000000 (0) (0 # 1) 18 0;
zz 11 3 0 1 10000000000000000000000000 (0) (0 # 1) 18 0;
zz 11 3 0 100000000000000000000000000000000000 1 (0) (0 # 1) 18 0;
zz 11 3 0 100000000000000000000000000000000 1 (0) (0 # 1) 18 0;
zz 11 3 0 100000000000000000000000000000 1 (0) (0 # 1) 18 0;
zz 11 3 0 100000000000000000000000000 1 (0) (0 # 1) 18 0;
zz 11 3 0 100000000000000000000000 1 (0) (0 # 1) 18 0;
zz 11 3 0 100000000000000000000 1 (0) (0 # 1) 18 0;
zz 11 3 0 100000000000000000 1 (0) (0 # 1) 18 0;
zz 11 3 0 100000000000000 1 (0) (0 # 1) 18 0;
zz 11 3 0 100000000000 1 (0) (0 # 1) 18 0;
zz 11 3 0 100000000 1 (0) (0 # 1) 18 0;
zz 11 3 0 100000000 1 (0) (0 # 1) 18 0;
zz 11 3 0 10000000 1 (0) (0 # 1) 18 0;
zz 11 3 0 1000000 1 (0) (0 # 1) 18 0;
zz 11 3 0 10000 1 (0) (0 # 1) 18 0;
zz 11 3 0 1000 1 (0) (0 # 1) 18 0;
zz 11 3 0 100 1 (0) (0 # 1) 18 0;
zz 11 3 0 1 10 (0) (0 # 1) 18 0;
zz 11 3 0 1 10 (0) (0 # 1) 18 0;
zz 11 3 0 1 10000 (0) (0 # 1) 18 0;
zz 11 3 0 1 10000000 (0) (0 # 1) 18 0;
zz 11 3 0 1 10000000000 (0) (0 # 1) 18 0;
zz 11 3 0 1 10000000000000 (0) (0 # 1) 18 0;
zz 11 3 0 1 10000000000000000 (0) (0 # 1) 18 0;
zz 11 3 0 1 10000000000000000000 (0) (0 # 1) 18 0;
zz 11 3 0 1 10000000000000000000000 (0) (0 # 1) 18 0;
zz 11 3 0 1 10000000000000000000000000 (0) (0 # 1) 18 0;
zz 11 3 0 100000000000000000000000000000000000 1 (0) (0 # 1) 20 0;
zz 11 3 0 100000000000000000000000000000000 1 (0) (0 # 1) 20 0;
zz 11 3 0 100000000000000000000000000000 1 (0) (0 # 1) 20 0;
zz 11 3 0 100000000000000000000000000 1 (0) (0 # 1) 20 0;
zz 11 3 0 100000000000000000000000 1 (0) (0 # 1) 20 0;
zz 11 3 0 100000000000000000000 1 (0) (0 # 1) 20 0;
zz 11 3 0 100000000000000000 1 (0) (0 # 1) 20 0;
zz 11 3 0 100000000000000 1 (0) (0 # 1) 20 0;
zz 11 3 0 100000000000 1 (0) (0 # 1) 20 0;
zz 11 3 0 100000000 1 (0) (0 # 1) 20 0;
zz 11 3 0 100000000 1 (0) (0 # 1) 20 0;
zz 11 3 0 10000000 1 (0) (0 # 1) 20 0;
zz 11 3 0 1000000 1 (0) (0 # 1) 20 0;
zz 11 3 0 10000 1 (0) (0 # 1) 20 0;
zz 11 3 0 1000 1 (0) (0 # 1) 20 0;
zz 11 3 0 100 1 (0) (0 # 1) 20 0;
zz 11 3 0 1 10 (0) (0 # 1) 20 0;
zz 11 3 0 1 10 (0) (0 # 1) 20 0;
zz 11 3 0 1 10000 (0) (0 # 1) 20 0;
zz 11 3 0 1 10000000 (0) (0 # 1) 20 0;
zz 11 3 0 1 10000000000 (0) (0 # 1) 20 0;
zz 11 3 0 1 10000000000000 (0) (0 # 1) 20 0;
zz 11 3 0 1 10000000000000000 (0) (0 # 1) 20 0;
zz 11 3 0 1 10000000000000000000 (0) (0 # 1) 20 0;
zz 11 3 0 1 10000000000000000000000 (0) (0 # 1) 20 0;
zz 11 3 0 1 10000000000000000000000000 (0) (0 # 1) 20 0;
zz 11 4 0 100000000000000000000000000000000000 1 (0) (101325 # 1) 19 0;
zz 11 4 0 100000000000000000000000000000000 1 (0) (101325 # 1) 19 0;
zz 11 4 0 100000000000000000000000000000 1 (0) (101325 # 1) 19 0;
zz 11 4 0 100000000000000000000000000 1 (0) (101325 # 1) 19 0;
zz 11 4 0 100000000000000000000000 1 (0) (101325 # 1) 19 0;
zz 11 4 0 100000000000000000000 1 (0) (101325 # 1) 19 0;
zz 11 4 0 100000000000000000 1 (0) (101325 # 1) 19 0;
zz 11 4 0 100000000000000 1 (0) (101325 # 1) 19 0;
zz 11 4 0 100000000000 1 (0) (101325 # 1) 19 0;
zz 11 4 0 100000000 1 (0) (101325 # 1) 19 0;
zz 11 4 0 100000000 1 (0) (101325 # 1) 19 0;
zz 11 4 0 10000000 1 (0) (101325 # 1) 19 0;
zz 11 4 0 1000000 1 (0) (101325 # 1) 19 0;
zz 11 4 0 10000 1 (0) (101325 # 1) 19 0;
zz 11 4 0 1000 1 (0) (101325 # 1) 19 0;
zz 11 4 0 100 1 (0) (101325 # 1) 19 0;
zz 11 4 0 1 10 (0) (101325 # 1) 19 0;
zz 11 4 0 1 10 (0) (101325 # 1) 19 0;
zz 11 4 0 1 10000 (0) (101325 # 1) 19 0;
zz 11 4 0 1 10000000 (0) (101325 # 1) 19 0;
zz 11 4 0 1 10000000000 (0) (101325 # 1) 19 0;
zz 11 4 0 1 10000000000000 (0) (101325 # 1) 19 0;
zz 11 4 0 1 10000000000000000 (0) (101325 # 1) 19 0;
zz 11 4 0 1 10000000000000000000 (0) (101325 # 1) 19 0;
zz 11 4 0 1 10000000000000000000000 (0) (101325 # 1) 19 0;
zz 11 4 0 1 10000000000000000000000000 (0) (101325 # 1) 19 0;
zz 12 2 3 1 1 (0) (0 # 1) 23 0;
z 13 0 0 1 1;
z 14 1 6 1 1;
z 15 0 0 1 1;
zz 12 2 3 1 1 (0) (0 # 1) 23 0;
zz 12 3 0 1 1 (0) (0 # 1) 23 0;
z 13 1 0 1 1;
z 13 1 0 1 1;
z 14 2 0 1 1;
z 14 2 0 1 1;
z 14 1 3 1 1;
z 14 2 0 1 1;
z 14 2 0 1 1;
z 15 1 0 1 1;
z 15 1 0 1 1;
z 15 1 0 1 1;
z 15 1 0 1 1;
z 15 1 0 1 1;
zz 2 5 5 6145149 5890810000000 (0) (0 # 1) 5 1;
zz 2 6 11 6145149 5890810000000 (0) (0 # 1) 5 1;
zz 2 4 7 6145149 5890810000 (0) (0 # 1) 5 1;
zz 2 5 0 6145149 5890810000 (0) (0 # 1) 5 1;
zz 2 8 0 6145149 5890810000000000 (0) (0 # 1) 5 1;
zz 2 7 1 6145149 5890810000000000 (0) (0 # 1) 5 1;
zz 2 8 1 6145149 5890810000000000000 (0) (0 # 1) 5 1;
zz 2 7 1 6145149 5890810000000000000 (0) (0 # 1) 5 1;
zz 2 7 1 6145149 5890810000000000000 (0) (0 # 1) 5 1;
zz 2 5 7 6145149 5890810 (0) (0 # 1) 5 1;
zz 2 6 0 6145149 5890810 (0) (0 # 1) 5 1;
z 16 0 0 1 1;
z 16 1 0 1 1;
z 16 1 6 1000 1;
z 16 2 0 1000 1;
zz 2 10 5 3981988955361 58908100000000000000 (0) (0 # 1) 5 1;
zz 2 11 0 3981988955361 58908100000000000000 (0) (0 # 1) 5 1;
zz 2 11 6 11945966866083 7363512500000000000 (0) (0 # 1) 5 1;
zz 2 12 0 11945966866083 7363512500000000000 (0) (0 # 1) 5 1;
zz 2 12 0 11945966866083 7363512500000000000 (0) (0 # 1) 5 1;
zz 2 4 6 473176473 256000000000000 (0) (0 # 1) 5 1;
zz 2 5 0 473176473 256000000000000 (0) (0 # 1) 5 1;
zz 2 5 0 473176473 256000000000000 (0) (0 # 1) 5 1;
zz 2 2 0 473176473 16000000000000 (0) (0 # 1) 5 1;
zz 2 2 0 473176473 16000000000000 (0) (0 # 1) 5 1;
zz 2 3 7 473176473 1000000000000 (0) (0 # 1) 5 1;
zz 2 4 0 473176473 1000000000000 (0) (0 # 1) 5 1;
zz 2 4 0 473176473 1000000000000 (0) (0 # 1) 5 1;
zz 2 4 0 473176473 1000000000000 (0) (0 # 1) 5 1;
zz 2 4 5 3312235311 500000000000 (0) (0 # 1) 5 1;
zz 2 5 0 3312235311 500000000000 (0) (0 # 1) 5 1;
zz 2 5 6 3312235311 250000000000 (0) (0 # 1) 5 1;
zz 2 6 0 3312235311 250000000000 (0) (0 # 1) 5 1;
zz 2 6 0 3312235311 250000000000 (0) (0 # 1) 5 1;
zz 2 4 9 473176473 10000000000 (0) (0 # 1) 5 1;
zz 2 5 0 473176473 10000000000 (0) (0 # 1) 5 1;
zz 2 5 0 473176473 10000000000 (0) (0 # 1) 5 1;
zz 2 5 0 473176473 10000000000 (0) (0 # 1) 5 1;
zz 2 6 10 3312235311 62500000000 (0) (0 # 1) 5 1;
zz 2 7 0 3312235311 62500000000 (0) (0 # 1) 5 1;
zz 2 7 0 3312235311 62500000000 (0) (0 # 1) 5 1;
zz 2 7 0 3312235311 62500000000 (0) (0 # 1) 5 1;
zz 2 7 0 3312235311 62500000000 (0) (0 # 1) 5 1;
zz 2 5 8 473176473 500000000 (0) (0 # 1) 5 1;
zz 2 6 0 473176473 500000000 (0) (0 # 1) 5 1;
zz 2 6 0 473176473 500000000 (0) (0 # 1) 5 1;
zz 2 7 11 3312235311 3125000000 (0) (0 # 1) 5 1;
zz 2 8 0 3312235311 3125000000 (0) (0 # 1) 5 1;
zz 2 8 0 3312235311 3125000000 (0) (0 # 1) 5 1;
zz 2 8 0 3312235311 3125000000 (0) (0 # 1) 5 1;
zz 2 8 0 3312235311 3125000000 (0) (0 # 1) 5 1;
zz 2 8 0 3312235311 3125000000 (0) (0 # 1) 5 1;
zz 2 6 0 6145149 5890810 (0) (0 # 1) 5 1;
zz 2 5 0 473176473 10000000000 (0) (0 # 1) 5 1;
zz 2 7 0 3312235311 62500000000 (0) (0 # 1) 5 1;
zz 2 6 0 473176473 500000000 (0) (0 # 1) 5 1;
zz 2 8 0 3312235311 3125000000 (0) (0 # 1) 5 1;
zz 2 6 0 6145149 5890810 (0) (0 # 1) 5 1;
zz 2 5 0 473176473 10000000000 (0) (0 # 1) 5 1;
zz 2 7 0 3312235311 62500000000 (0) (0 # 1) 5 1;
zz 2 6 0 473176473 500000000 (0) (0 # 1) 5 1;
zz 2 8 0 3312235311 3125000000 (0) (0 # 1) 5 1;
zz 2 6 0 6145149 5890810000000 (0) (0 # 1) 5 1;
zz 2 5 0 6145149 5890810000 (0) (0 # 1) 5 1;
zz 2 9 0 6145149 5890810000000000 (0) (0 # 1) 5 1;
zz 2 9 0 6145149 5890810000000000000 (0) (0 # 1) 5 1;
zz 2 6 0 6145149 5890810 (0) (0 # 1) 5 1;
z 16 1 0 1 1;
z 16 2 0 1000 1;
zz 2 11 0 3981988955361 58908100000000000000 (0) (0 # 1) 5 1;
zz 2 12 0 11945966866083 7363512500000000000 (0) (0 # 1) 5 1;
zz 2 5 0 473176473 256000000000000 (0) (0 # 1) 5 1;
zz 2 4 0 473176473 1000000000000 (0) (0 # 1) 5 1;
zz 2 5 0 3312235311 500000000000 (0) (0 # 1) 5 1;
zz 2 6 0 3312235311 250000000000 (0) (0 # 1) 5 1;
zz 2 5 0 473176473 10000000000 (0) (0 # 1) 5 1;
zz 2 7 0 3312235311 62500000000 (0) (0 # 1) 5 1;
zz 2 6 0 473176473 500000000 (0) (0 # 1) 5 1;
zz 2 8 0 3312235311 3125000000 (0) (0 # 1) 5 1;
zz 2 7 0 6145149 5890810 (0) (0 # 1) 5 1;
zz 2 9 0 3312235311 3125000000 (0) (0 # 1) 5 1;
zz 2 9 0 3312235311 3125000000 (0) (0 # 1) 5 1;
zz 2 7 0 473176473 500000000 (0) (0 # 1) 5 1;
zz 2 5 0 473176473 1000000000000 (0) (0 # 1) 5 1;
zz 2 5 0 473176473 1000000000000 (0) (0 # 1) 5 1;
zz 2 6 0 6145149 5890810000000 (0) (0 # 1) 5 1;
zz 2 5 0 6145149 5890810000 (0) (0 # 1) 5 1;
zz 2 9 0 6145149 5890810000000000 (0) (0 # 1) 5 1;
zz 2 9 0 6145149 5890810000000000000 (0) (0 # 1) 5 1;
zz 2 6 0 6145149 5890810 (0) (0 # 1) 5 1;
z 16 1 0 1 1;
z 16 2 0 1000 1;
zz 2 11 0 3981988955361 58908100000000000000 (0) (0 # 1) 5 1;
zz 2 12 0 11945966866083 7363512500000000000 (0) (0 # 1) 5 1;
zz 2 5 0 473176473 256000000000000 (0) (0 # 1) 5 1;
zz 2 4 0 473176473 1000000000000 (0) (0 # 1) 5 1;
zz 2 5 0 3312235311 500000000000 (0) (0 # 1) 5 1;
zz 2 6 0 3312235311 250000000000 (0) (0 # 1) 5 1;
zz 2 5 0 473176473 10000000000 (0) (0 # 1) 5 1;
zz 2 7 0 3312235311 62500000000 (0) (0 # 1) 5 1;
zz 2 6 0 473176473 500000000 (0) (0 # 1) 5 1;
zz 2 8 0 3312235311 3125000000 (0) (0 # 1) 5 1;
zz 2 7 0 6145149 5890810 (0) (0 # 1) 5 1;
zz 2 9 0 3312235311 3125000000 (0) (0 # 1) 5 1;
zz 2 9 0 3312235311 3125000000 (0) (0 # 1) 5 1;
zz 2 7 0 473176473 500000000 (0) (0 # 1) 5 1;
zz 2 5 0 473176473 1000000000000 (0) (0 # 1) 5 1;
zz 2 5 0 473176473 1000000000000 (0) (0 # 1) 5 1;
z 16 2 0 1000 1;
zz 2 7 0 6145149 5890810 (0) (0 # 1) 5 1;
zz 2 9 0 3312235311 3125000000 (0) (0 # 1) 5 1;
zz 2 7 0 473176473 500000000 (0) (0 # 1) 5 1;
zz 2 6 0 6145149 5890810000000 (0) (0 # 1) 5 1;
zz 2 5 0 6145149 5890810000 (0) (0 # 1) 5 1;
zz 2 9 0 6145149 5890810000000000 (0) (0 # 1) 5 1;
zz 2 9 0 6145149 5890810000000000000 (0) (0 # 1) 5 1;
zz 2 6 0 6145149 5890810 (0) (0 # 1) 5 1;
z 16 1 0 1 1;
z 16 2 0 1000 1;
zz 2 11 0 3981988955361 58908100000000000000 (0) (0 # 1) 5 1;
zz 2 12 0 11945966866083 7363512500000000000 (0) (0 # 1) 5 1;
zz 2 5 0 473176473 256000000000000 (0) (0 # 1) 5 1;
zz 2 4 0 473176473 1000000000000 (0) (0 # 1) 5 1;
zz 2 5 0 3312235311 500000000000 (0) (0 # 1) 5 1;
zz 2 6 0 3312235311 250000000000 (0) (0 # 1) 5 1;
zz 2 5 0 473176473 10000000000 (0) (0 # 1) 5 1;
zz 2 7 0 3312235311 62500000000 (0) (0 # 1) 5 1;
zz 2 6 0 473176473 500000000 (0) (0 # 1) 5 1;
zz 2 8 0 3312235311 3125000000 (0) (0 # 1) 5 1;
zz 2 7 0 6145149 5890810 (0) (0 # 1) 5 1;
zz 2 9 0 3312235311 3125000000 (0) (0 # 1) 5 1;
zz 2 9 0 3312235311 3125000000 (0) (0 # 1) 5 1;
zz 2 7 0 473176473 500000000 (0) (0 # 1) 5 1;
zz 2 5 0 473176473 1000000000000 (0) (0 # 1) 5 1;
zz 2 5 0 473176473 1000000000000 (0) (0 # 1) 5 1;
z 16 1 1 1000 1;
zz 2 7 0 6145149 5890810 (0) (0 # 1) 5 1;
zz 2 9 0 3312235311 3125000000 (0) (0 # 1) 5 1;
zz 2 7 0 473176473 500000000 (0) (0 # 1) 5 1;
zz 2 7 0 614514900000000000000000000000 589081 (0) (0 # 1) 5 1;
zz 2 7 0 614514900000000000000000000 589081 (0) (0 # 1) 5 1;
zz 2 7 0 614514900000000000000000 589081 (0) (0 # 1) 5 1;
zz 2 7 0 614514900000000000000 589081 (0) (0 # 1) 5 1;
zz 2 7 0 614514900000000000 589081 (0) (0 # 1) 5 1;
zz 2 7 0 614514900000000 589081 (0) (0 # 1) 5 1;
zz 2 7 0 614514900000 589081 (0) (0 # 1) 5 1;
zz 2 7 0 614514900 589081 (0) (0 # 1) 5 1;
zz 2 7 0 6145149 5890810 (0) (0 # 1) 5 1;
zz 2 7 0 6145149 5890810000 (0) (0 # 1) 5 1;
zz 2 7 0 6145149 58908100000 (0) (0 # 1) 5 1;
zz 2 7 0 6145149 589081000000 (0) (0 # 1) 5 1;
zz 2 7 0 6145149 58908100000000 (0) (0 # 1) 5 1;
zz 2 7 0 6145149 589081000000000 (0) (0 # 1) 5 1;
zz 2 7 0 6145149 5890810000000000000000 (0) (0 # 1) 5 1;
zz 2 7 0 6145149 5890810000000000000000000 (0) (0 # 1) 5 1;
zz 2 7 0 6145149 5890810000000000000000000000 (0) (0 # 1) 5 1;
zz 2 7 0 6145149 5890810000000000000000000000000 (0) (0 # 1) 5 1;
zz 2 7 0 6145149 5890810000000000000000000000000000 (0) (0 # 1) 5 1;
zz 2 7 0 6145149 5890810000000000000000000000000000000 (0) (0 # 1) 5 1;
zz 2 7 0 6145149 5890810000000000000000000000000000000000 (0) (0 # 1) 5 1;
zz 2 7 0 6145149 5890810000000000000000000000000000000000000 (0) (0 # 1) 5 1;
z 16 1 0 1000000000000000000000000000000 1;
z 16 1 0 1000000000000000000000000000 1;
z 16 1 0 1000000000000000000000000 1;
z 16 1 0 1000000000000000000000 1;
z 16 1 0 1000000000000000000 1;
z 16 1 0 1000000000000000 1;
z 16 1 0 1000000000000 1;
z 16 1 0 1000000000 1;
z 16 1 0 1000000 1;
z 16 1 0 100 1;
z 16 1 0 10 1;
z 16 1 0 1 10;
z 16 1 0 1 100;
z 16 1 0 1 1000;
z 16 1 0 1 1000000;
z 16 1 0 1 1000000;
z 16 1 0 1 1000000000;
z 16 1 0 1 1000000000000;
z 16 1 0 1 1000000000000000;
z 16 1 0 1 1000000000000000000;
z 16 1 0 1 1000000000000000000000;
z 16 1 0 1 1000000000000000000000000;
z 16 1 0 1 1000000000000000000000000000;
z 16 1 0 1 1000000000000000000000000000000;
z 17 1 3 1 1;
z 17 2 0 1 1;
z 17 2 0 1 1;
z 17 3 0 1 1;
z 17 3 0 1 1;
zz 12 2 4 1 1 (0) (0 # 1) 21 0;
zz 12 3 0 1 1 (0) (0 # 1) 21 0;
z 14 1 4 9610517 80000000000;
z 14 2 0 9610517 80000000000;
z 14 2 0 9610517 80000000000;
z 14 2 0 9610517 80000000000;
zz 12 2 3 10404660096024101 24000000000000000 (0) (0 # 1) 23 0;
zz 12 3 0 10404660096024101 24000000000000000 (0) (0 # 1) 23 0;
zz 12 3 0 10404660096024101 24000000000000000 (0) (0 # 1) 23 0;
zz 12 2 4 10404660096024101 24000000000000000 (0) (0 # 1) 22 0;
zz 12 3 0 10404660096024101 24000000000000000 (0) (0 # 1) 22 0;
zz 12 3 0 10404660096024101 24000000000000000 (0) (0 # 1) 22 0;
zz 12 4 0 1 1 (0) (0 # 1) 21 0;
z 14 2 0 9610517 80000000000;
z 14 3 0 9610517 80000000000;
z 14 3 0 9610517 80000000000;
zz 12 3 0 10404660096024101 24000000000000000 (0) (0 # 1) 23 0;
zz 12 4 0 10404660096024101 24000000000000000 (0) (0 # 1) 23 0;
zz 12 3 0 10404660096024101 24000000000000000 (0) (0 # 1) 22 0;
zz 12 4 0 10404660096024101 24000000000000000 (0) (0 # 1) 22 0;
zz 12 3 0 1 1 (0) (0 # 1) 21 0;
zz 12 0 0 10404660096024101 24000000000000000 (0) (0 # 1) 23 0;
zz 12 1 0 10404660096024101 24000000000000000 (0) (0 # 1) 23 0;
zz 12 1 0 10404660096024101 24000000000000000 (0) (0 # 1) 23 0;
z 14 0 0 196133 2000000000;
z 14 1 0 196133 2000000000;
z 14 1 0 196133 2000000000;
zz 12 1 3 1 144 (0) (0 # 1) 23 0;
z 18 0 0 1 1;
z 19 0 0 1 1;
z 19 1 0 1 1;
z 19 1 0 1 1;
z 20 0 0 1 1;
z 20 1 0 1 1;
z 20 1 0 1 1;
z 20 1 0 1 1;
z 20 1 0 1 1;
z 21 0 0 1 1;
z 21 1 0 1 1;
z 21 1 0 1 1;
zz 12 2 1 15625 12632814 (0) (0 # 1) 23 0;
zz 12 1 0 10404660096024101 24000000000000000 (0) (0 # 1) 23 0;
zz 12 2 0 10404660096024101 24000000000000000 (0) (0 # 1) 23 0;
zz 12 2 0 10404660096024101 24000000000000000 (0) (0 # 1) 23 0;
z 14 1 0 196133 2000000000;
z 14 2 0 196133 2000000000;
zz 12 2 0 1 144 (0) (0 # 1) 23 0;
z 18 1 0 1 1;
zz 12 3 0 1 1 (0) (0 # 1) 23 0;
z 19 1 0 1 1;
z 19 2 0 1 1;
z 20 1 0 1 1;
z 20 2 0 1 1;
z 20 2 0 1 1;
z 20 2 0 1 1;
z 21 1 0 1 1;
z 21 2 0 1 1;
zz 12 3 0 15625 12632814 (0) (0 # 1) 23 0;
zz 12 3 0 1 1 (0) (0 # 1) 23 0;
zz 12 4 0 1 1 (0) (0 # 1) 23 0;
z 14 2 0 1 1;
z 14 2 0 1 1;
z 14 3 0 1 1;
z 22 0 0 1 1;
z 22 1 0 1 1;
z 22 1 0 1 1;
z 22 1 0 1 1;
z 22 1 0 1 1;
z 23 0 0 1 1;
z 23 1 0 1 1;
z 23 1 0 1 1;
z 22 1 0 1 1;
z 22 2 0 1 1;
z 22 2 0 1 1;
z 22 2 0 1 1;
z 22 2 0 1 1;
z 23 1 0 1 1;
z 23 2 0 1 1;
z 23 2 0 1 1;
z 24 0 0 1 1;
z 24 1 0 1 1;
z 25 0 0 1 1;
z 25 1 0 1 1;
z 25 1 0 1 1;
z 26 0 0 1 1;
z 26 1 0 1 1;
z 26 1 0 1 1;
z 26 1 0 1 1;
z 26 1 0 1 1;
z 27 0 0 1 1;
z 27 1 0 1 1;
z 28 0 0 1 1;
z 28 1 0 1 1;
z 28 1 0 1 1;
z 25 2 0 1 1;
z 24 1 0 1 1;
z 24 2 0 1 1;
z 25 1 0 1 1;
z 25 2 0 1 1;
z 25 2 0 1 1;
z 26 1 0 1 1;
z 26 2 0 1 1;
z 26 2 0 1 1;
z 26 2 0 1 1;
z 26 2 0 1 1;
z 27 1 0 1 1;
z 27 2 0 1 1;
z 28 1 0 1 1;
z 28 2 0 1 1;
z 28 2 0 1 1;
z 25 3 0 1 1;
z 29 0 0 1 1;
z 29 1 6 25146 15625;
z 29 1 0 1 1;
z 29 1 0 1 1;
z 29 1 0 1 1;
z 29 1 0 1 1;
z 29 2 0 25146 15625;
z 29 2 0 25146 15625;
z 29 2 0 25146 15625;
z 29 2 0 25146 15625;
z 29 1 0 1 1;
z 29 2 0 1 1;
z 29 2 0 1 1;
z 29 2 0 25146 15625;
z 29 3 0 25146 15625;
z 29 3 0 25146 15625;
z 30 0 0 1 1;
z 30 1 0 1 1;
z 30 1 0 1 1;
z 30 1 0 1 1;
z 30 2 0 1208925819614629174706176 1;
z 30 2 0 1180591620717411303424 1;
z 30 2 0 1152921504606846976 1;
z 30 2 0 1125899906842624 1;
z 30 2 0 1099511627776 1;
z 30 2 0 1073741824 1;
z 30 2 0 1048576 1;
z 30 2 0 1024 1;
z 30 2 0 1024 1;
z 30 1 0 1208925819614629174706176 1;
z 30 1 0 1180591620717411303424 1;
z 30 1 0 1152921504606846976 1;
z 30 1 0 1125899906842624 1;
z 30 1 0 1099511627776 1;
z 30 1 0 1073741824 1;
z 30 1 0 1048576 1;
z 30 1 0 1024 1;
z 30 1 0 1024 1;
z 30 1 12 1 8;
z 30 2 0 1 8;
z 30 2 0 1 8;
z 30 2 0 1 8;
z 30 3 0 125000000000000000000000 1;
z 30 3 0 125000000000000000000 1;
z 30 3 0 125000000000000000 1;
z 30 3 0 125000000000000 1;
z 30 3 0 125000000000 1;
z 30 3 0 125000000 1;
z 30 3 0 125000 1;
z 30 3 0 125 1;
z 30 3 0 125 1;
z 30 2 0 125000000000000000000000 1;
z 30 2 0 125000000000000000000 1;
z 30 2 0 125000000000000000 1;
z 30 2 0 125000000000000 1;
z 30 2 0 125000000000 1;
z 30 2 0 125000000 1;
z 30 2 0 125000 1;
z 30 2 0 125 1;
z 30 2 0 125 1;
z 31 0 0 1 1;
z 31 1 0 1 1;
z 32 0 0 1 1;
z 32 1 0 1 1;
z 32 1 0 1 1;
z 32 1 3 10 1;
z 32 2 0 10 1;
z 32 2 0 10 1;
z 31 1 0 1 1;
z 31 2 0 1 1;
z 32 1 0 1 1;
z 32 2 0 1 1;
z 32 2 0 1 1;
z 32 2 0 10 1;
z 32 3 0 10 1;
z 32 3 0 10 1;
z 10 3 3 9869233 1000000000000000;
z 10 4 0 9869233 1000000000000000;
z 10 6 0 9869233 1000000000000000000;
z 10 5 1 9869233 1000000000000000000;
z 10 4 0 9869233 1000000000000000;
z 10 7 0 9869233 1000000000000000000;
z 10 4 0 9869233 1000000000000000;
z 10 5 0 9869233000000000000000 1;
z 10 5 0 9869233000000000000 1;
z 10 5 0 9869233000000000 1;
z 10 5 0 9869233000000 1;
z 10 5 0 9869233000 1;
z 10 5 0 9869233 1;
z 10 5 0 9869233 1000;
z 10 5 0 9869233 1000000;
z 10 5 0 9869233 1000000000;
z 10 5 0 9869233 1000000000000;
z 10 5 0 9869233 1000000000000;
z 10 5 0 9869233 10000000000000;
z 10 5 0 9869233 100000000000000;
z 10 5 0 9869233 10000000000000000;
z 10 5 0 9869233 100000000000000000;
z 10 5 0 9869233 1000000000000000000000;
z 10 5 0 9869233 1000000000000000000000;
z 10 5 0 9869233 1000000000000000000000000;
z 10 5 0 9869233 1000000000000000000000000000;
z 10 5 0 9869233 1000000000000000000000000000000;
z 10 5 0 9869233 1000000000000000000000000000000000;
z 10 5 0 9869233 1000000000000000000000000000000000000;
z 10 5 0 9869233 1000000000000000000000000000000000000000;
z 10 5 0 9869233 1000000000000000000000000000000000000000000;
z 10 5 0 9869233 1000000000000000000000000000000000000000000000;
z 33 0 0 1 1;
z 33 1 0 1 1;
z 33 1 0 1 1;
z 33 1 0 1 1;
z 17 0 0 20000 196133;
z 17 1 0 20000 196133;
z 17 1 0 20000 196133;
z 17 2 0 20000 196133;
z 33 1 4 1 100000;
z 33 2 0 1 100000;
z 33 2 0 1 100000;
z 33 2 0 1 100000;
z 17 1 0 20000 196133;
z 17 1 0 20000 196133;
z 33 1 0 1 1;
z 33 2 0 1 1;
z 17 1 0 20000 196133;
z 17 2 0 20000 196133;
z 17 2 0 20000 196133;
z 17 3 0 20000 196133;
z 33 2 0 1 100000;
z 33 3 0 1 100000;
z 33 3 0 1 100000;
z 34 2 8 1 1;
z 34 3 0 1 1;
z 34 3 0 1 1;
z 34 3 0 1 1;
z 34 3 0 1 1;
z 34 3 0 1 1;
z 34 1 4 1000 1;
z 34 2 0 1000 1;
z 34 0 0 3600000 1;
z 34 1 0 3600000 1;
z 34 1 0 3600000 1;
z 34 1 0 3600000 1;
z 34 2 5 1055 1;
z 34 3 0 1055 1;
z 34 3 0 1055 1;
z 34 4 0 1 1;
z 34 4 0 1 1;
z 34 4 0 1 1;
z 34 3 0 3600 1;
z 34 2 13 3600 1;
z 34 4 0 3600 1;
z 34 4 0 3600 1;
z 34 3 7 523 125;
z 34 4 0 523 125;
z 34 4 0 523 125;
z 34 4 0 523 125;
z 34 4 0 1 1;
z 34 1 0 3600000 1;
z 34 2 0 3600000 1;
z 34 3 0 1055 1;
z 34 4 0 1055 1;
z 34 4 0 3600 1;
z 34 4 0 523 125;
z 34 4 0 1 1;
z 34 1 0 3600000 1;
z 34 2 0 3600000 1;
z 34 3 0 1055 1;
z 34 4 0 1055 1;
z 34 4 0 3600 1;
z 34 4 0 523 125;
z 34 3 0 1 1;
z 34 4 0 1 1;
z 34 4 0 1 1;
z 34 4 0 1 1;
z 34 4 0 1 1;
z 34 2 0 1000 1;
z 34 3 0 1000 1;
z 34 1 0 3600000 1;
z 34 2 0 3600000 1;
z 34 2 0 3600000 1;
z 34 2 0 3600000 1;
z 34 3 0 1055 1;
z 34 5 0 1 1;
z 34 5 0 1 1;
z 34 5 0 1 1;
z 34 4 0 3600 1;
z 34 3 0 3600 1;
z 34 5 0 3600 1;
z 34 5 0 3600 1;
z 34 4 0 523 125;
z 34 5 0 523 125;
z 34 5 0 523 125;
z 34 3 0 1 1;
z 34 4 0 1 1;
z 34 4 0 1 1;
z 34 4 0 1 1;
z 34 4 0 1 1;
z 34 2 0 1000 1;
z 34 3 0 1000 1;
z 34 2 0 3600000 1;
z 34 2 0 3600000 1;
z 34 4 0 1055 1;
z 34 5 0 1 1;
z 34 5 0 1 1;
z 34 5 0 1 1;
z 34 4 0 3600 1;
z 34 3 0 3600 1;
z 34 5 0 3600 1;
z 34 5 0 3600 1;
z 34 3 0 3600000000000000000000000000000000 1;
z 34 3 0 3600000000000000000000000000000 1;
z 34 3 0 3600000000000000000000000000 1;
z 34 3 0 3600000000000000000000000 1;
z 34 3 0 3600000000000000000000 1;
z 34 3 0 3600000000000000000 1;
z 34 3 0 3600000000000000 1;
z 34 3 0 3600000000000 1;
z 34 3 0 3600000000 1;
z 34 3 0 3600000 1;
z 34 3 0 360000 1;
z 34 3 0 36000 1;
z 34 3 0 360 1;
z 34 3 0 36 1;
z 34 3 0 18 5;
z 34 3 0 9 2500;
z 34 3 0 9 2500;
z 34 3 0 9 2500000;
z 34 3 0 9 2500000000;
z 34 3 0 9 2500000000000;
z 34 3 0 9 2500000000000000;
z 34 3 0 9 2500000000000000000;
z 34 3 0 9 2500000000000000000000;
z 34 3 0 9 2500000000000000000000000;
z 34 3 0 9 2500000000000000000000000000;
z 34 5 0 1000000000000000000000000000000 1;
z 34 5 0 1000000000000000000000000000 1;
z 34 5 0 1000000000000000000000000 1;
z 34 5 0 1000000000000000000000 1;
z 34 5 0 1000000000000000000 1;
z 34 5 0 1000000000000000 1;
z 34 5 0 1000000000000 1;
z 34 5 0 1000000000 1;
z 34 5 0 1000000 1;
z 34 5 0 1000 1;
z 34 5 0 1000 1;
z 34 5 0 100 1;
z 34 5 0 10 1;
z 34 5 0 1 10;
z 34 5 0 1 100;
z 34 5 0 1 1000;
z 34 5 0 1 1000000;
z 34 5 0 1 1000000;
z 34 5 0 1 1000000000;
z 34 5 0 1 1000000000000;
z 34 5 0 1 1000000000000000;
z 34 5 0 1 1000000000000000000;
z 34 5 0 1 1000000000000000000000;
z 34 5 0 1 1000000000000000000000000;
z 34 5 0 1 1000000000000000000000000000;
z 34 5 0 1 1000000000000000000000000000000;
z 35 0 0 1 1;
z 35 1 0 1 1;
z 35 1 8 31250 23303121;
z 35 2 0 31250 23303121;
z 35 2 0 31250 23303121;
z 35 2 0 31250 23303121;
z 35 2 0 31250 23303121;
z 35 2 0 31250 23303121;
z 35 2 0 31250 23303121;
z 35 2 0 31250 23303121;
z 35 1 0 1 1;
z 35 2 0 1 1;
z 35 2 0 31250 23303121;
z 35 3 0 31250 23303121;
z 35 3 0 31250 23303121;
z 35 3 0 31250 23303121;
z 35 3 0 31250 23303121;
z 35 3 0 31250000000000000000000000000000000 23303121;
z 35 3 0 31250000000000000000000000000000 23303121;
z 35 3 0 31250000000000000000000000000 23303121;
z 35 3 0 31250000000000000000000000 23303121;
z 35 3 0 31250000000000000000000 23303121;
z 35 3 0 31250000000000000000 23303121;
z 35 3 0 31250000000000000 23303121;
z 35 3 0 31250000000000 23303121;
z 35 3 0 31250000000 23303121;
z 35 3 0 31250000 23303121;
z 35 3 0 31250000 23303121;
z 35 3 0 3125000 23303121;
z 35 3 0 312500 23303121;
z 35 3 0 3125 23303121;
z 35 3 0 625 46606242;
z 35 3 0 125 93212484;
z 35 3 0 1 745699872;
z 35 3 0 1 745699872;
z 35 3 0 1 745699872000;
z 35 3 0 1 745699872000000;
z 35 3 0 1 745699872000000000;
z 35 3 0 1 745699872000000000000;
z 35 3 0 1 745699872000000000000000;
z 35 3 0 1 745699872000000000000000000;
z 35 3 0 1 745699872000000000000000000000;
z 35 3 0 1 745699872000000000000000000000000;
z 36 0 0 1 1;
z 36 1 0 1 1;
z 36 1 0 1 1;
z 36 1 0 1 1;
z 36 1 0 1 1;
z 36 1 0 1 1;
z 36 1 0 1 1;
z 36 1 0 1 1;
z 36 1 0 1 1;
z 36 1 0 1 1;
z 36 2 0 1 1;
z 36 2 0 1 1;
z 36 2 0 1 1;
z 36 2 0 1 1;
z 36 2 0 1 1;
z 36 2 0 1 1;
z 36 2 0 1000000000000000000000000000000 1;
z 36 2 0 1000000000000000000000000000 1;
z 36 2 0 1000000000000000000000000 1;
z 36 2 0 1000000000000000000000 1;
z 36 2 0 1000000000000000000 1;
z 36 2 0 1000000000000000 1;
z 36 2 0 1000000000000 1;
z 36 2 0 1000000000 1;
z 36 2 0 1000000 1;
z 36 2 0 1000 1;
z 36 2 0 1000 1;
z 36 2 0 100 1;
z 36 2 0 10 1;
z 36 2 0 1 10;
z 36 2 0 1 100;
z 36 2 0 1 1000;
z 36 2 0 1 1000000;
z 36 2 0 1 1000000;
z 36 2 0 1 1000000000;
z 36 2 0 1 1000000000000;
z 36 2 0 1 1000000000000000;
z 36 2 0 1 1000000000000000000;
z 36 2 0 1 1000000000000000000000;
z 36 2 0 1 1000000000000000000000000;
z 36 2 0 1 1000000000000000000000000000;
z 36 2 0 1 1000000000000000000000000000000;
z 37 0 0 1 1;
z 37 1 0 1 1;
z 37 1 0 1 1;
z 37 1 0 1 1;
z 37 1 0 1 1;
z 37 1 0 1 1;
z 37 1 0 1 1;
z 37 2 0 1 1;
z 37 2 0 1 1;
z 37 2 0 1 1;
z 37 2 0 1000000000000000000000000000000 1;
z 37 2 0 1000000000000000000000000000 1;
z 37 2 0 1000000000000000000000000 1;
z 37 2 0 1000000000000000000000 1;
z 37 2 0 1000000000000000000 1;
z 37 2 0 1000000000000000 1;
z 37 2 0 1000000000000 1;
z 37 2 0 1000000000 1;
z 37 2 0 1000000 1;
z 37 2 0 1000 1;
z 37 2 0 1000 1;
z 37 2 0 100 1;
z 37 2 0 10 1;
z 37 2 0 1 10;
z 37 2 0 1 100;
z 37 2 0 1 1000;
z 37 2 0 1 1000000;
z 37 2 0 1 1000000;
z 37 2 0 1 1000000000;
z 37 2 0 1 1000000000000;
z 37 2 0 1 1000000000000000;
z 37 2 0 1 1000000000000000000;
z 37 2 0 1 1000000000000000000000;
z 37 2 0 1 1000000000000000000000000;
z 37 2 0 1 1000000000000000000000000000;
z 37 2 0 1 1000000000000000000000000000000;
z 38 0 0 1 1;
z 38 1 0 1 1;
z 38 1 0 1 1;
z 38 1 0 1 1;
z 38 1 0 1 1;
z 38 1 0 1 1;
z 38 1 0 1 1;
z 38 2 0 1 1;
z 38 2 0 1 1;
z 38 2 0 1000000000000000000000000000000 1;
z 38 2 0 1000000000000000000000000000 1;
z 38 2 0 1000000000000000000000000 1;
z 38 2 0 1000000000000000000000 1;
z 38 2 0 1000000000000000000 1;
z 38 2 0 1000000000000000 1;
z 38 2 0 1000000000000 1;
z 38 2 0 1000000000 1;
z 38 2 0 1000000 1;
z 38 2 0 1000 1;
z 38 2 0 1000 1;
z 38 2 0 100 1;
z 38 2 0 10 1;
z 38 2 0 1 10;
z 38 2 0 1 100;
z 38 2 0 1 1000;
z 38 2 0 1 1000000;
z 38 2 0 1 1000000;
z 38 2 0 1 1000000000;
z 38 2 0 1 1000000000000;
z 38 2 0 1 1000000000000000;
z 38 2 0 1 1000000000000000000;
z 38 2 0 1 1000000000000000000000;
z 38 2 0 1 1000000000000000000000000;
z 38 2 0 1 1000000000000000000000000000;
z 38 2 0 1 1000000000000000000000000000000;
z 39 0 0 1 1;
z 39 1 0 1 1;
z 39 1 0 1 1;
z 39 2 0 1000000000000000000000000000000 1;
z 39 2 0 1000000000000000000000000000 1;
z 39 2 0 1000000000000000000000000 1;
z 39 2 0 1000000000000000000000 1;
z 39 2 0 1000000000000000000 1;
z 39 2 0 1000000000000000 1;
z 39 2 0 1000000000000 1;
z 39 2 0 1000000000 1;
z 39 2 0 1000000 1;
z 39 2 0 1000 1;
z 39 2 0 1000 1;
z 39 2 0 100 1;
z 39 2 0 10 1;
z 39 2 0 1 10;
z 39 2 0 1 100;
z 39 2 0 1 1000;
z 39 2 0 1 1000000;
z 39 2 0 1 1000000;
z 39 2 0 1 1000000000;
z 39 2 0 1 1000000000000;
z 39 2 0 1 1000000000000000;
z 39 2 0 1 1000000000000000000;
z 39 2 0 1 1000000000000000000000;
z 39 2 0 1 1000000000000000000000000;
z 39 2 0 1 1000000000000000000000000000;
z 39 2 0 1 1000000000000000000000000000000;
z 39 1 0 1 1;
zz 1 2 0 5 9 (0) (-160 # 9) 0 0;
zz 1 3 0 5 9 (0) (-160 # 9) 0 0;
zz 1 3 0 5 9 (0) (-160 # 9) 0 0;
zz 1 3 0 5 9 (0) (-160 # 9) 0 0;
zz 1 3 0 5 9 (0) (-160 # 9) 0 0;
zz 1 3 0 5 9 (0) (-160 # 9) 0 0;
zz 1 3 0 5 9 (0) (-160 # 9) 0 0;
zz 1 4 0 5 9 (0) (-160 # 9) 0 0;
zz 1 4 0 5 9 (0) (-160 # 9) 0 0;
zz 1 4 0 5 9 (0) (-160 # 9) 0 0;
zz 1 2 0 5000000000000000000000000000000 9 (0) (-160 # 9) 0 0;
zz 1 2 0 5000000000000000000000000000 9 (0) (-160 # 9) 0 0;
zz 1 2 0 5000000000000000000000000 9 (0) (-160 # 9) 0 0;
zz 1 2 0 5000000000000000000000 9 (0) (-160 # 9) 0 0;
zz 1 2 0 5000000000000000000 9 (0) (-160 # 9) 0 0;
zz 1 2 0 5000000000000000 9 (0) (-160 # 9) 0 0;
zz 1 2 0 5000000000000 9 (0) (-160 # 9) 0 0;
zz 1 2 0 5000000000 9 (0) (-160 # 9) 0 0;
zz 1 2 0 5000000 9 (0) (-160 # 9) 0 0;
zz 1 2 0 5000 9 (0) (-160 # 9) 0 0;
zz 1 2 0 5000 9 (0) (-160 # 9) 0 0;
zz 1 2 0 500 9 (0) (-160 # 9) 0 0;
zz 1 2 0 50 9 (0) (-160 # 9) 0 0;
zz 1 2 0 1 18 (0) (-160 # 9) 0 0;
zz 1 2 0 1 180 (0) (-160 # 9) 0 0;
zz 1 2 0 1 1800 (0) (-160 # 9) 0 0;
zz 1 2 0 1 1800000 (0) (-160 # 9) 0 0;
zz 1 2 0 1 1800000 (0) (-160 # 9) 0 0;
zz 1 2 0 1 1800000000 (0) (-160 # 9) 0 0;
zz 1 2 0 1 1800000000000 (0) (-160 # 9) 0 0;
zz 1 2 0 1 1800000000000000 (0) (-160 # 9) 0 0;
zz 1 2 0 1 1800000000000000000 (0) (-160 # 9) 0 0;
zz 1 2 0 1 1800000000000000000000 (0) (-160 # 9) 0 0;
zz 1 2 0 1 1800000000000000000000000 (0) (-160 # 9) 0 0;
zz 1 2 0 1 1800000000000000000000000000 (0) (-160 # 9) 0 0;
zz 1 2 0 1 1800000000000000000000000000000 (0) (-160 # 9) 0 0;
z 40 0 0 1 1;
z 40 1 0 1 1;
z 40 1 0 1 1;
z 40 1 0 1 1;
z 40 1 0 1 1;
z 40 2 0 1 1;
z 40 2 0 1000000000000000000000000000000 1;
z 40 2 0 1000000000000000000000000000 1;
z 40 2 0 1000000000000000000000000 1;
z 40 2 0 1000000000000000000000 1;
z 40 2 0 1000000000000000000 1;
z 40 2 0 1000000000000000 1;
z 40 2 0 1000000000000 1;
z 40 2 0 1000000000 1;
z 40 2 0 1000000 1;
z 40 2 0 1000 1;
z 40 2 0 1000 1;
z 40 2 0 100 1;
z 40 2 0 10 1;
z 40 2 0 1 10;
z 40 2 0 1 100;
z 40 2 0 1 1000;
z 40 2 0 1 1000000;
z 40 2 0 1 1000000;
z 40 2 0 1 1000000000;
z 40 2 0 1 1000000000000;
z 40 2 0 1 1000000000000000;
z 40 2 0 1 1000000000000000000;
z 40 2 0 1 1000000000000000000000;
z 40 2 0 1 1000000000000000000000000;
z 40 2 0 1 1000000000000000000000000000;
z 40 2 0 1 1000000000000000000000000000000;
z 41 0 0 1 1;
z 41 1 0 1 1;
z 41 1 0 1 1;
z 41 1 0 1 1;
z 41 2 0 1000000000000000000000000000000 1;
z 41 2 0 1000000000000000000000000000 1;
z 41 2 0 1000000000000000000000000 1;
z 41 2 0 1000000000000000000000 1;
z 41 2 0 1000000000000000000 1;
z 41 2 0 1000000000000000 1;
z 41 2 0 1000000000000 1;
z 41 2 0 1000000000 1;
z 41 2 0 1000000 1;
z 41 2 0 1000 1;
z 41 2 0 1000 1;
z 41 2 0 100 1;
z 41 2 0 10 1;
z 41 2 0 1 10;
z 41 2 0 1 100;
z 41 2 0 1 1000;
z 41 2 0 1 1000000;
z 41 2 0 1 1000000;
z 41 2 0 1 1000000000;
z 41 2 0 1 1000000000000;
z 41 2 0 1 1000000000000000;
z 41 2 0 1 1000000000000000000;
z 41 2 0 1 1000000000000000000000;
z 41 2 0 1 1000000000000000000000000;
z 41 2 0 1 1000000000000000000000000000;
z 41 2 0 1 1000000000000000000000000000000;
z 42 0 0 1 1;
z 42 1 0 1 1;
z 42 1 0 1 1;
z 42 1 0 1 1;
z 42 1 0 1 1;
z 43 0 0 1 1;
z 43 1 0 1 1;
z 43 1 0 1 1;
z 42 1 0 1 1;
z 42 2 0 1 1;
z 42 2 0 1 1;
z 42 2 0 1 1;
z 43 2 0 1 1;
z 42 2 0 1000000000000000000000000000000 1;
z 42 2 0 1000000000000000000000000000 1;
z 42 2 0 1000000000000000000000000 1;
z 42 2 0 1000000000000000000000 1;
z 42 2 0 1000000000000000000 1;
z 42 2 0 1000000000000000 1;
z 42 2 0 1000000000000 1;
z 42 2 0 1000000000 1;
z 42 2 0 1000000 1;
z 42 2 0 1000 1;
z 42 2 0 1000 1;
z 42 2 0 100 1;
z 42 2 0 10 1;
z 42 2 0 1 10;
z 42 2 0 1 100;
z 42 2 0 1 1000;
z 42 2 0 1 1000000;
z 42 2 0 1 1000000;
z 42 2 0 1 1000000000;
z 42 2 0 1 1000000000000;
z 42 2 0 1 1000000000000000;
z 42 2 0 1 1000000000000000000;
z 42 2 0 1 1000000000000000000000;
z 42 2 0 1 1000000000000000000000000;
z 42 2 0 1 1000000000000000000000000000;
z 42 2 0 1 1000000000000000000000000000000;
z 44 0 0 1 1;
z 44 1 0 1 1;
z 44 1 0 1 1;
z 44 1 0 1 1;
z 44 1 0 1 1;
z 44 1 0 1 1;
z 44 1 0 1 1;
z 44 1 0 1 1;
z 44 1 0 1 1;
z 44 1 0 1 1;
z 45 0 0 1 1;
z 45 1 0 1 1;
z 45 1 0 1 1;
z 45 1 0 1 1;
z 45 1 0 1 1;
z 45 1 0 1 1;
z 45 1 0 1 1;
z 45 1 0 1 1;
z 45 1 0 1 1;
z 45 1 0 1 1;
z 45 1 0 1 1;
z 46 0 0 1 1;
z 46 1 0 1 1;
z 46 1 0 1 1;
z 46 1 0 1 1;
z 46 1 0 1 1;
z 44 1 0 1 1;
z 44 2 0 1 1;
z 44 2 0 1 1;
z 44 2 0 1 1;
z 44 2 0 1 1;
z 45 1 0 1 1;
z 45 2 0 1 1;
z 45 2 0 1 1;
z 45 2 0 1 1;
z 45 2 0 1 1;
z 45 2 0 1 1;
z 46 1 0 1 1;
z 46 2 0 1 1;
z 46 2 0 1 1;
z 47 0 0 1 1;
z 47 1 0 1 1;
z 47 1 0 1 1;
z 47 1 0 1 1;
z 47 1 0 1 1;
z 47 1 0 1 1;
z 47 1 0 1 1;
z 47 2 0 1 1;
z 47 2 0 1 1;
z 47 2 0 1 1;
z 47 2 0 1 1;
z 47 1 4 1 100;
z 47 2 0 1 100;
z 47 2 0 1 100;
z 47 2 0 1 100;
z 47 2 0 1 100;
z 48 0 0 1 1;
z 48 1 0 1 1;
z 48 1 0 1 1;
z 48 1 0 1 1;
z 48 1 0 1 1;
z 48 1 0 1 1;
z 49 0 0 1 1;
z 49 1 0 1 1;
z 50 0 0 1 1;
z 50 1 0 1 1;
z 49 1 0 1 1;
z 49 2 0 1 1;
z 50 1 0 1 1;
z 50 2 0 1 1].
