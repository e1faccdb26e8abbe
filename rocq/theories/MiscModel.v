(** Model of strategies/utils/horizontal_zone.hpp and utils/enum_io.hpp. *)
From Verif Require Import Base ImageModel StratModel StreamModel GlyphIoModel.

(** horizontal_zone.hpp 27-36: horizontal_box_zone_0_1_2. *)
Definition box_zone (img : image) (d : Z) : Z :=
  if ih img / 4 <? d then (if ih img <? d then 2 else 1) else 0.
(** horizontal_zone.hpp 38-45: horizontal_zone_1_2_3_4_5. *)
Definition horizontal_zone (img : image) (tb : top_bottom) : Z :=
  if tb_bottom tb <? tb_top tb then u32 (3 + box_zone img (u32 (tb_top tb - tb_bottom tb)))
  else if tb_top tb <? tb_bottom tb then u32 (3 - box_zone img (u32 (tb_bottom tb - tb_top tb)))
  else 3.

(** enum_io.hpp 29-31, for enumerations whose underlying type is unsigned. *)
Definition write_enum (e : Z) : list Z := print_uint e.
(** enum_io.hpp 33-40: the local variable has no value when operator>> does not
    set it, that is when the sentry fails; it is read all the same. *)
Definition read_enum (s : istream) : res (Z * istream) :=
  let '(ok, _) := sentry false s in
  if ok : bool then Ok (get_unsigned 0 s) else UB.
