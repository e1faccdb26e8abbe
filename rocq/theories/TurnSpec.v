(** What the features of an image become when it is turned. *)
From Verif Require Import Base ImageModel ImageSpec StratModel StratSpec ZoneModel.

(** The image turned by a quarter turn, then by another one. *)
Definition turned_twice (img r : image) : Prop := exists q, rotate90 img = Ok q /\ rotate90 q = Ok r.

(** Two measures on a scale from 0 to n whose sum is n, but for what is lost when they
    are rounded. *)
Definition opposite (n : Z) (a b : res Z) : Prop :=
  exists u v, a = Ok u /\ b = Ok v /\ 0 <= u <= n /\ n - 1 <= u + v <= n.

(** A line of pixels seen from its other end: as many runs, the first one being the last. *)
Definition from_end (a : alternation) : alternation :=
  mkalt (if Z.odd (alt_count a) then alt_start a else negb (alt_start a)) (alt_count a).

(** The alternations, the zones and the zone proportions of an image alone. *)
Definition alternations_of (img : image) : res (list alternation) := q <- rotate90 img ;; alternations img q.
Definition zones_of (junk : Z -> Z) (ctx : zone_ctx) (img : image) : res (list Z) :=
  zc <- count_zone_compute junk img ctx ;; zone_value img (zc_zone zc).
Definition proportions_of (junk : Z -> Z) (ctx : zone_ctx) (sort : list Z -> list Z) (img : image) : res (list Z) :=
  zc <- count_zone_compute junk img ctx ;; pz_load sort (zc_zone zc).

(** An image that the features can measure. *)
Definition ordinary (img : image) : Prop :=
  wf_image img /\ 1 <= iw img /\ 1 <= ih img /\ 100 * (iw img * ih img * (iw img + ih img)) < 2147483648.
