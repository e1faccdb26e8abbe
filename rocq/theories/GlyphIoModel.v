(** Model of loader2/glyphs_loader.{hpp,cpp}, loader2/image_io.cpp and the
    stream operators of image/coordinate.cpp. *)
From Verif Require Import Base ImageModel StreamModel.

(** glyphs_loader.hpp 30-34, 48-51. *)
Record view := mkview { vw_word : list Z; vw_font : list Z; vw_line : Z }.
Record glyph := mkglyph { gl_img : image; gl_views : list view }.

(** coordinate.cpp 42-48: operator>>(istream, Bounds); [None] leaves the bounds. *)
Definition read_bounds (s : istream) : option (Z * Z) * istream :=
  let '(w, s) := get_unsigned 0 s in
  let '(h, s) := get_unsigned 0 s in
  (if is_ok s then Some (w, h) else None, s).

(** image_io.cpp 27-36: read_img; [old] is the image before. *)
Definition read_img (old : image) (s : istream) : image * istream :=
  let '(bnd, s) := read_bounds s in
  match bnd with
  | Some (w, h) =>
    let '(p, s) := read_bytes (u32 (w * h)) (skip_char s) in
    (mkimage w h p, s)
  | None => (old, s)
  end.

(** glyphs_loader.cpp 26-28: operator>>(istream, View) to a view whose content
    is [old]. *)
Definition read_view (old : view) (s : istream) : view * istream :=
  let '(w, s) := get_word (vw_word old) s in
  let '(f, s) := get_word (vw_font old) s in
  let '(l, s) := get_unsigned (vw_line old) s in
  (mkview w f l, s).

(** glyphs_loader.cpp 30-41: operator>>(istream, Views).  The result is the
    list of the views read; the content of the others, when the stream fails, is
    not modelled (glyphs_loader.cpp 50-56 drops the glyph then). *)
Definition read_views (old : list view) (s : istream) : res (list view * istream) :=
  let '(n, s) := get_unsigned 0 s in
  if negb (is_ok s) then Ok (old, s)
  else
    loop (S (S (List.length (is_rest s))))
      (fun st : Z * list view * istream =>
        let '(i, vs, s) := st in
        if i <? n then
          let '(v, s') := read_view (nth (Z.to_nat i) old (mkview [] [] 0)) s in
          if is_ok s' then Ok (inl (i + 1, vs ++ [v], s')) else Ok (inr (vs, s'))
        else Ok (inr (vs, s)))
      (0, [], s).

(** glyphs_loader.cpp 43-48: operator>>(istream, Glyph). *)
Definition read_glyph (old : glyph) (s : istream) : res (glyph * istream) :=
  let '(img, s) := read_img (gl_img old) s in
  if is_ok s then
    '(vs, s) <- read_views (gl_views old) s ;;
    Ok (mkglyph img vs, s)
  else Ok (mkglyph img (gl_views old), s).

(** glyphs_loader.cpp 50-56: operator>>(istream, Glyphs) to an empty list.
    (After the move of its image the local glyph has an empty image.) *)
Definition read_glyphs (s : istream) : res (list glyph * istream) :=
  loop (S (S (List.length (is_rest s))))
    (fun st : list view * list glyph * istream =>
      let '(old, gs, s) := st in
      '(g, s') <- read_glyph (mkglyph (mkimage 0 0 []) old) s ;;
      if is_ok s' then Ok (inl (gl_views g, gs ++ [g], s')) else Ok (inr (gs, s')))
    ([], [], s).

(** image_io.cpp 38-42, coordinate.cpp 30-32: write_img. *)
Definition write_img (img : image) : list Z :=
  print_uint (iw img) ++ [32] ++ print_uint (ih img) ++ [32] ++ idata img.
(** glyphs_loader.cpp 59-61. *)
Definition write_view (v : view) : list Z :=
  vw_word v ++ [32] ++ vw_font v ++ [32] ++ print_uint (vw_line v).
(** glyphs_loader.cpp 63-69. *)
Definition write_views (vs : list view) : list Z :=
  print_uint (Z.of_nat (List.length vs)) ++ [10] ++ flat_map (fun v => write_view v ++ [10]) vs.
(** glyphs_loader.cpp 71-73. *)
Definition write_glyph (g : glyph) : list Z :=
  write_img (gl_img g) ++ [10] ++ write_views (gl_views g).
(** glyphs_loader.cpp 75-82: to a stream that does not fail. *)
Definition write_glyphs (gs : list glyph) : list Z := flat_map write_glyph gs.
