(** Model of splineBuild (spline.c:241-249), which builds an index over an array of
    keys in one call. *)
From Verif Require Import Base Spline.
Open Scope Z_scope.

(** The loop, spline.c:244-248: [i] is an id_t (uint32_t). *)
Fixpoint build_loop (s : spline) (data : list Z) (i : Z) : spline :=
  match data with
  | [] => s
  | k :: data' => build_loop (spl_add s k i) data' (u32 (i + 1))
  end.
(** splineBuild, spline.c:241-249.  [data] are the keys behind the pointers; the error
    bound replaces the one given to splineInit (spline.c:242). *)
Definition splineBuild (s : spline) (data : list Z) (maxError : Z) : spline :=
  build_loop (mkSpl (s_count s) (s_size s) (s_start s) (s_pts s) (s_upper s) (s_lower s) (s_first s)
                    (s_lastLoc s) (s_lastKey s) (u32 maxError) (s_adds s) (s_temp s)) data 0.
