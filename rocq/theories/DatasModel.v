(** Model of loader2/datas_loader.hpp, strategies/utils/context.hpp and the
    strategy lists of defined_loader.hpp. *)
From Verif Require Import Base ImageModel StratModel ZoneModel.

(** The features of strategies/*.hpp used by defined_loader.hpp. *)
Inductive algo :=
| Dvgravity2 | Dvdirection2 | Dzdensity | Hdirection | Hdirection2 | Hgravity | Hgravity2
| Proportionality | Dvdirection | Dvgravity | Density | Hbar | Alternations | Zone
| ProportionalityZone.

(** datas_loader.hpp 52-70: Strategy<algo, policy>; [st_rot] is the policy img90. *)
Record strategy := mkst { st_algo : algo; st_rot : bool }.

(** defined_loader.hpp 100-105: REGISTRY and REGISTRY2. *)
Definition registry (a : algo) : list strategy := [mkst a false].
Definition registry2 (a : algo) : list strategy := [mkst a false; mkst a true].

(** defined_loader.hpp 107-127. *)
Definition simple_strategies : list strategy :=
  [mkst Dvgravity2 true; mkst Dvdirection2 true] ++ registry2 Dzdensity ++
  [mkst Dvdirection2 false; mkst Dvgravity2 false] ++
  registry2 Hdirection ++ registry2 Hdirection2 ++ registry2 Hgravity ++ registry2 Hgravity2 ++
  registry Proportionality ++ registry2 Dvdirection ++ registry2 Dvgravity ++ registry Density.
(** defined_loader.hpp 129-133. *)
Definition complex_strategies : list strategy := registry2 Hbar ++ registry Alternations.
(** defined_loader.hpp 135-138. *)
Definition exclusive_strategies : list strategy := registry Zone ++ registry ProportionalityZone.
(** defined_loader.hpp 143-147, 66-70. *)
Definition all_strategies : list strategy :=
  simple_strategies ++ complex_strategies ++ exclusive_strategies.

(** The value types: unsigned, array of alternations, array of unsigned, vector
    of unsigned. *)
Inductive fval :=
| VNum (n : Z) | VAlts (l : list alternation) | VArr (l : list Z) | VVec (l : list Z).

(** The shared computations (strategies/utils/*_fn). *)
Inductive tbkind := KHdir | KHgra | KDdir | KDgra.
Definition tb_fn (k : tbkind) : image -> res top_bottom :=
  match k with
  | KHdir => horizontal_direction
  | KHgra => horizontal_gravity
  | KDdir => diagonal_vertical_direction
  | KDgra => diagonal_vertical_gravity
  end.

(** context.hpp 21-43: cache_context, is_loaded and the content of the base;
    context.hpp 45-75 and datas_loader.hpp 41-51: one context per shared
    computation and per policy.  (An array_compare or direct feature has
    no_context.) *)
Record ctxs := mkctxs {
  cx_tb : tbkind -> bool -> bool * top_bottom;
  cx_zone : bool -> bool * zone_ctx }.

Definition tbkind_eqb (a b : tbkind) : bool :=
  match a, b with
  | KHdir, KHdir | KHgra, KHgra | KDdir, KDdir | KDgra, KDgra => true
  | _, _ => false
  end.

(** context.hpp 33-36, 48-51: reset of every context. *)
Definition ctx_reset (cx : ctxs) : ctxs :=
  mkctxs (fun k r => (false, snd (cx_tb cx k r))) (fun r => (false, snd (cx_zone cx r))).

(** context.hpp 24-32: compute, for a TopBottom context. *)
Definition tb_compute (k : tbkind) (rot : bool) (img : image) (cx : ctxs) : res (top_bottom * ctxs) :=
  let '(loaded, v) := cx_tb cx k rot in
  if loaded : bool then Ok (v, cx)
  else
    tb <- tb_fn k img ;;
    Ok (tb, mkctxs (fun k' r' => if tbkind_eqb k k' && Bool.eqb rot r' then (true, tb) else cx_tb cx k' r')
                   (cx_zone cx)).

(** context.hpp 24-32: compute, for the zones. *)
Definition zone_compute (junk : Z -> Z) (rot : bool) (img : image) (cx : ctxs) : res (zone_info * ctxs) :=
  let '(loaded, zc) := cx_zone cx rot in
  if loaded : bool then Ok (zc_zone zc, cx)
  else
    zc' <- count_zone_compute junk img zc ;;
    Ok (zc_zone zc', mkctxs (cx_tb cx) (fun r' => if Bool.eqb rot r' then (true, zc') else cx_zone cx r')).

(** The load of a feature using a TopBottom context. *)
Definition tb_load (pre : image -> res (Z + Z)) (post : Z -> top_bottom -> res Z) (k : tbkind)
    (rot : bool) (img : image) (cx : ctxs) : res (fval * ctxs) :=
  r <- pre img ;;
  match r with
  | inl v => Ok (VNum v, cx)
  | inr a => '(tb, cx') <- tb_compute k rot img cx ;; v <- post a tb ;; Ok (VNum v, cx')
  end.

(** datas_loader.hpp 61-70: Strategy::load, with the load of each feature
    (strategies/*.cpp).  [sort] is the std::sort of proportionality_zone.cpp. *)
Definition strategy_load (junk : Z -> Z) (sort : list Z -> list Z) (s : strategy)
    (img img90 : image) (cx : ctxs) : res (fval * ctxs) :=
  let i := if st_rot s then img90 else img in
  let i90 := if st_rot s then img else img90 in
  let num (v : res Z) := n <- v ;; Ok (VNum n, cx) in
  match st_algo s with
  | Hdirection => tb_load no_pre balance_post KHdir (st_rot s) i cx
  | Hdirection2 => tb_load hdirection2_pre share_post KHdir (st_rot s) i cx
  | Hgravity => tb_load no_pre balance_post KHgra (st_rot s) i cx
  | Hgravity2 => tb_load hgravity2_pre share_post KHgra (st_rot s) i cx
  | Dvdirection => tb_load no_pre balance_post KDdir (st_rot s) i cx
  | Dvdirection2 => tb_load dvdirection2_pre balance2_post KDdir (st_rot s) i cx
  | Dvgravity => tb_load no_pre balance_post KDgra (st_rot s) i cx
  | Dvgravity2 => tb_load dvgravity2_pre balance2_post KDgra (st_rot s) i cx
  | Dzdensity => num (dzdensity i)
  | Proportionality => num (proportionality i)
  | Density => num (density i)
  | Hbar => num (hbar i)
  | Alternations => l <- alternations i i90 ;; Ok (VAlts l, cx)
  | Zone => '(zi, cx') <- zone_compute junk (st_rot s) i cx ;; l <- zone_value i zi ;; Ok (VArr l, cx')
  | ProportionalityZone =>
      '(zi, cx') <- zone_compute junk (st_rot s) i cx ;; l <- pz_load sort zi ;; Ok (VVec l, cx')
  end.

(** datas_loader.hpp 191-197: Datas, one column per strategy, and its contexts. *)
Record datas := mkdatas { d_cols : list (list fval); d_ctx : ctxs }.

(** datas_loader.hpp 148-150, 218-220: the loads of the strategies in order. *)
Fixpoint load_columns (junk : Z -> Z) (sort : list Z -> list Z) (ss : list strategy)
    (cols : list (list fval)) (img img90 : image) (cx : ctxs) : res (list (list fval) * ctxs) :=
  match ss, cols with
  | s :: ss', c :: cols' =>
    '(v, cx1) <- strategy_load junk sort s img img90 cx ;;
    '(cs, cx2) <- load_columns junk sort ss' cols' img img90 cx1 ;;
    Ok ((c ++ [v]) :: cs, cx2)
  | _, _ => Ok ([], cx)
  end.

(** datas_loader.hpp 215-221: Datas::load. *)
Definition datas_load (junk : Z -> Z) (sort : list Z -> list Z) (ss : list strategy)
    (d : datas) (img : image) : res datas :=
  img90 <- rotate90 img ;;
  '(cols, cx) <- load_columns junk sort ss (d_cols d) img img90 (ctx_reset (d_ctx d)) ;;
  Ok (mkdatas cols cx).

(** main/write_datas.cpp: the loads of a list of images. *)
Fixpoint datas_load_all (junk : Z -> Z) (sort : list Z -> list Z) (ss : list strategy)
    (d : datas) (imgs : list image) : res datas :=
  match imgs with
  | [] => Ok d
  | img :: imgs' => d' <- datas_load junk sort ss d img ;; datas_load_all junk sort ss d' imgs'
  end.

(** operator== of the value types. *)
Fixpoint list_eqb {A} (eqb : A -> A -> bool) (a b : list A) : bool :=
  match a, b with
  | [], [] => true
  | x :: a', y :: b' => eqb x y && list_eqb eqb a' b'
  | _, _ => false
  end.
Definition fval_eqb (a b : fval) : bool :=
  match a, b with
  | VNum x, VNum y => x =? y
  | VAlts x, VAlts y => list_eqb alt_eqb x y
  | VArr x, VArr y => list_eqb Z.eqb x y
  | VVec x, VVec y => list_eqb Z.eqb x y
  | _, _ => false
  end.
(** operator< of the value types: lexicographical for arrays and vectors. *)
Fixpoint list_ltb {A} (ltb : A -> A -> bool) (a b : list A) : bool :=
  match a, b with
  | [], _ :: _ => true
  | x :: a', y :: b' => if ltb x y then true else if ltb y x then false else list_ltb ltb a' b'
  | _, [] => false
  end.
Definition fval_ltb (a b : fval) : bool :=
  match a, b with
  | VNum x, VNum y => x <? y
  | VAlts x, VAlts y => list_ltb alt_ltb x y
  | VArr x, VArr y => list_ltb Z.ltb x y
  | VVec x, VVec y => list_ltb Z.ltb x y
  | _, _ => false
  end.

(** Cell i of a column (datas_loader.hpp 145-147). *)
Definition col_at (c : list fval) (i : Z) : res fval :=
  if i <? 0 then UB else match nth_error c (Z.to_nat i) with Some v => Ok v | None => UB end.

(** datas_loader.hpp 82-93: cmp_datas. *)
Fixpoint cmp_datas (cmp cmp2 : fval -> fval -> bool) (cols : list (list fval)) (i1 i2 : Z) : res bool :=
  match cols with
  | [] => Ok true
  | [c] => a <- col_at c i1 ;; b <- col_at c i2 ;; Ok (cmp a b)
  | c :: cols' =>
    a <- col_at c i1 ;;
    b <- col_at c i2 ;;
    if cmp a b || cmp2 a b then cmp_datas cmp cmp2 cols' i1 i2 else Ok false
  end.
(** datas_loader.hpp 223-229: lt and eq. *)
Definition datas_lt (d : datas) (i1 i2 : Z) : res bool := cmp_datas fval_ltb fval_eqb (d_cols d) i1 i2.
Definition datas_eq (d : datas) (i1 i2 : Z) : res bool :=
  cmp_datas fval_eqb (fun _ _ => false) (d_cols d) i1 i2.
