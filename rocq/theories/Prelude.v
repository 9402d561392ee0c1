(** Common imports. *)
From stdpp Require Export base tactics list numbers strings gmap fin_maps fin_sets sorting.
From Coq Require Export Lia ZifyBool ZifyNat.
