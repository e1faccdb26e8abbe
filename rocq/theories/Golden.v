(** Some glyphs of resources/glyphs/normalized-glyphs-latin.txt, and their rows in
    resources/datas/latin.txt, which write_datas printed: the model prints the same
    rows.  Of the views of a glyph only the first is kept, and a label that is not
    ASCII is replaced by "u": write_datas ignores them.  (Written by
    tools/gen_golden.py.) *)
From Verif Require Import Base SortModel SortProofs DatasModel LearnModel RecogWitness.

Definition lines (l : list string) : list Z := flat_map (fun s => str s ++ [10]) l.
Definition some_glyphs : list Z := lines [
  "1 1 x";
  "1";
  ". AbyssinicaSIL-R-8 4294967295";
  "2 11 xxxx----------xxxxxxx-";
  "1";
  "; Oxygen-Sans-12 4294967295";
  "3 12 x--xx--x--x--x--x---x-x--x--x--x-x--";
  "1";
  "} Oxygen-Sans-10 4294967295";
  "4 7 xxxxx---x----xxx---x---xxxxx";
  "1";
  "s DejaVuSansCondensed-9 4294967295";
  "4 13 --xx--xx--xx--xx--xx--xx--xx--xx--xx--xx--x--xx-xx--";
  "1";
  "J DejaVuSansCondensed-10 4294967295";
  "5 7 xxxx-xx--xx----x----x----x----x----";
  "1";
  "r DejaVuSansMono-9 4294967295";
  "5 9 -xxx-xx-xx----x---xx--xx-----x----xxx-xx-xxx-";
  "1";
  "3 FreeSans-9 4294967295";
  "5 10 xxxx----xx----x---x---x---xx---xx--------xx---xx--";
  "1";
  "? DejaVuSansCondensed-10 4294967295";
  "5 13 xxx----xx---xx---xx---xx---xx----xx--xx---xx---xx---xx---xx-xxx--";
  "1";
  "} trebuchetMS_10_bold 4294967295";
  "6 7 x----xxx--xx-x--x--x--x--xxxx---xx----xx--";
  "1";
  "v DejaVuSansMono-9 4294967295";
  "6 8 x-xxx-xx---xx----xx----xx----xx----xx----xx----x";
  "1";
  "n DejaVuSansMono-10 4294967295";
  "6 9 x----xx----xx----xx----xx----xx----xx----xx---xx-xxx-x";
  "1";
  "u gargi-11 4294967295";
  "6 10 -xxx-xxx--xxx----xx----xx----xxx--xx-xxx-x-----xxx--xx-xxxx-";
  "1";
  "g gargi-9 4294967295";
  "6 11 -----x-----x-----x-xxxxx-x--xxx----xx----xx----xx----x-x--xx-xxx-x";
  "1";
  "d DejaVuSansMono-10 4294967295";
  "6 11 -xxxx-xx--xxx----xx----x-x--x---xx---x--x-x----xx----xxx--xx-xxxx-";
  "1";
  "8 DroidSans-11 4294967295";
  "6 12 ----x----xx----x---------xxxx-xx--xxx----xxxxxxxx-----x-----xx-----xxxxx";
  "1";
  "u Oxygen-Sans-11 4294967295";
  "6 14 ----xx----xx----x----xx----xx----x----xx----xx----x----xx----xx----x----xx----xx----";
  "1";
  "/ DejaVuSerif-12 4294967295";
  "7 8 --xxx-x-x---x-x---x-xx--x--xx--x--xx-x---x-x---x-x-xxx--";
  "1";
  "u AbyssinicaSIL-R-8 4294967295";
  "7 9 --xxx---x---x-x-----xx-----xxxxxxxxx------x-----x-x---x---xxx--";
  "1";
  "e gargi-11 4294967295";
  "7 9 xxxxxx-x----xxx-----xx-----xx-----xx-----xx-----xx----x-xxxxx--";
  "1";
  "D DejaVuSansCondensed-9 4294967295";
  "7 10 x-----xxx----xxxx---xx-x---xx--x--xx--x--xx---x-xx---xxxx----xxx----xx";
  "1";
  "N FreeSans-9 4294967295";
  "7 11 ---xxx---xxxxx-xx----xx-----xx-xxx-xxx--xxxx----xxx----xxx----x-xx--xx--xxxx-";
  "1";
  "6 noname 4294967295";
  "7 11 x------x------x------x-xxxx-xx---x-xx---xxx-----xx-----xxx---xxxx---x-x-xxxx-";
  "1";
  "b DejaVuSansCondensed-11 4294967295";
  "7 12 ------x-----x------x-----x------x-----x------x-----x------x-----x------x-----x------";
  "1";
  "/ DejaVuSansMono-11 4294967295";
  "7 12 xxxxxxx-----xx-----x------x-----xx-----x-----xx-----x-----xx-----x-----xx-----xx----";
  "1";
  "7 DroidSans-12 4294967295";
  "7 16 ----xxx---xx-----xx-----xx-----xx-----xx-----xx-----xx--xxx-------xx-----xx-----xx-----xx-----xx-----xx------xxx";
  "1";
  "{ DejaVuSerif-12 4294967295";
  "8 9 --xxxxx--x---xx-xx---xxxx---x--xx--xx--xx--x---xxxx---xx-xx---x--xxxxx--";
  "1";
  "u DroidSans-9 4294967295";
  "8 10 xx------xx------xx------xx--xxx-xx-xx-xxxx-xx---xx--xxx-xx----xxxx-xx-xx-xx-xxx-";
  "1";
  "ls trebuchetMS_10_bold 4294967295";
  "8 11 x-----xxx-----xxx-----xxx-----xxx-----xxxxxxxxxxx-----xxx-----xxx-----xxx-----xxx-----xx";
  "1";
  "H Oxygen-Sans-10 4294967295";
  "8 12 --xxxx---xx------xx------xx-------xx-----xxx-----xxxx-xxxx-xx-xxxx-xxxxxxx--xxx--xx-xx----xx-xx-";
  "1";
  "& DejaVuSansMono-12 4294967295";
  "8 13 ---xx----xxxxxx-xx------xx------xx------xxx------xxxxx------xxx-------xx------xx------xxxx---xx-xxxxxxx-";
  "1";
  "S DejaVuSansCondensed-12 4294967295";
  "9 4 xxxxxxxxx------------------xxxxxxxxx";
  "1";
  "= AbyssinicaSIL-R-10 4294967295";
  "9 10 ---xx-x-----x--x-----x-xx---xxxxxxxx--xx-x-----x--x---xxxxxxxx---x-xx----xx-x-----x--x----";
  "1";
  "# DejaVuSansCondensed-10 4294967295";
  "9 11 xx-----xx-x-----x--xx----x--xx---xx---x---x----x---x----xx-xx-----x-x------xxx------xxx-------x----";
  "1";
  "V Oxygen-Sans-10 4294967295";
  "9 12 xxxxxxx--xx---xxx-xx----xx-xx----xx-xx---xxx-xxxxxxx--xx----xx-xx-----xxxx-----xxxx-----xxxx----xx-xxxxxxx--";
  "1";
  "B AbyssinicaSIL-R-12 4294967295";
  "10 10 ----x--x------x--x-----xx-xx---xxxxxxxxx---x--x------x--x---xxxxxxxxx---x--xx-----x--x------x--x----";
  "1";
  "# noname 4294967295";
  "10 12 xx------xxxx------xxxx------xxxx------xxxx------xxxx------xxxx------xxxx------xxxx------xxxx------x--xx----xx---xxxxx---";
  "1";
  "U Oxygen-Sans-12 4294967295";
  "11 9 -xx----x---x--x--x----x--x--x-----xx--x----------x---------x--xxx----x--x---x---x--x---x--x----xxx-";
  "1";
  "% gargi-9 4294967295";
  "11 15 ---xxxxxxx---xx----xxx-xx------xxxx--------xxx---------xx---------xx---------xx---------xx-------xx-xx-----xx---xx---xxx----xxxxx----------x----------x--------xxx---";
  "1";
  "u DejaVuSerif-12 4294967295";
  "13 10 xx----xx---xx-x---xxx---xx-x---xxx---x--xx--x-x---x--xx--x-xx-xx---x-xx--x-xx---x-x---x-x----xxx---xxx----xxx---xxx-----xx----xx--";
  "1";
  "W FreeSans-10 4294967295"]%string.
Definition their_datas : list Z := lines [
  "40";
  "50 45 8 64 81 11 60 20 27 43 61 67 72 80 50 38 18 44 37 45 75 50 39 7 25 13 46 39 91 28 31 36 20 20 44 21 67 23 27 39 ";
  "50 45 8 60 85 10 57 21 40 46 50 52 62 68 47 40 25 35 35 35 62 47 36 9 31 17 45 44 81 29 35 33 27 27 50 25 57 23 24 45 ";
  "0 0 41 75 31 27 40 22 43 42 27 31 41 26 46 28 17 20 28 24 60 34 34 5 20 34 33 62 41 59 52 50 38 36 50 40 27 41 24 44 ";
  "0 0 33 50 56 27 46 55 43 42 22 27 41 34 46 46 70 40 28 32 28 41 31 35 50 34 53 43 41 38 26 50 55 34 50 47 31 17 18 42 ";
  "50 100 75 66 50 55 50 54 75 20 40 20 40 10 40 30 20 42 21 42 26 53 13 12 43 66 43 18 18 31 37 64 47 19 45 30 20 31 29 51 ";
  "50 100 63 75 50 63 56 58 69 25 47 23 45 11 45 27 21 43 27 54 23 52 11 9 56 59 48 18 22 35 39 78 43 24 51 26 24 30 37 48 ";
  "100 72 107 100 104 145 105 105 100 100 115 84 90 91 100 82 100 100 105 108 96 100 81 100 116 97 100 82 100 63 91 100 102 107 108 102 100 92 104 105 ";
  "100 90 50 106 176 36 133 90 150 100 94 104 103 123 100 103 100 100 95 91 103 91 82 100 110 172 100 87 126 80 95 100 90 96 92 102 95 104 97 103 ";
  "50 35 52 50 52 66 52 52 50 50 56 43 45 46 50 43 50 50 51 53 48 50 42 50 54 49 50 41 50 32 46 50 51 52 54 51 50 47 51 52 ";
  "50 45 41 53 86 25 66 47 65 50 47 51 51 59 50 51 50 50 48 46 51 45 42 50 52 66 50 43 61 40 48 50 46 48 45 51 48 51 49 51 ";
  "100 87 110 100 105 152 101 117 100 106 121 78 96 72 100 68 100 100 102 109 94 96 62 100 128 99 100 69 100 69 86 100 102 116 104 103 98 92 121 106 ";
  "100 90 50 108 177 31 138 100 136 100 94 105 107 130 100 96 100 100 93 88 102 93 75 100 117 161 100 74 123 80 88 100 86 96 80 102 95 97 91 106 ";
  "50 41 53 50 52 71 51 56 50 52 59 40 48 39 50 38 50 50 50 55 47 48 35 50 59 49 50 35 50 35 44 50 50 54 52 51 49 47 57 52 ";
  "50 45 41 54 85 19 68 50 58 50 46 52 54 64 50 48 50 50 47 43 51 46 37 50 54 59 50 35 63 41 45 50 46 49 37 50 47 49 47 52 ";
  "50 15 20 36 23 41 35 33 27 46 42 40 37 35 35 33 30 46 43 43 41 38 38 36 36 30 47 44 42 40 38 69 47 45 42 50 45 55 42 56 ";
  "100 133 109 100 85 166 100 100 100 50 133 66 100 40 100 75 100 100 100 109 88 123 57 100 100 104 100 54 100 66 85 100 105 61 111 100 88 93 106 118 ";
  "100 90 50 109 188 25 160 100 160 100 93 105 111 136 100 90 100 100 92 80 100 85 70 100 175 125 100 69 112 70 86 100 90 100 75 100 96 111 76 120 ";
  "100 133 102 100 87 164 100 108 100 66 133 66 100 40 100 66 100 100 100 109 84 112 43 100 121 100 100 51 100 74 81 100 107 80 106 100 88 91 117 114 ";
  "100 90 50 110 186 25 155 111 138 100 93 105 113 139 100 86 100 100 90 80 100 88 65 100 162 120 100 63 110 77 79 100 88 100 66 100 96 105 76 120 ";
  "100 50 36 53 48 34 46 34 43 42 39 38 51 39 45 40 28 42 38 41 44 50 40 14 28 31 50 51 43 48 40 50 41 30 54 37 40 27 30 42 ";
  "1 2 0 2 0 0 0 0 0 0 0 0 0 0 0 1 0 0 1 0 0 0 0 0 1 0 0 0 1 0 0 2 0 0 0 0 0 0 0 0 ";
  "1 0 0 0 0 1 0 0 0 0 1 1 0 1 0 0 0 0 0 1 2 0 1 0 0 0 0 1 2 0 0 0 0 0 1 0 0 0 0 0 ";
  "0 0 1 1 0 1 0 1 1 1 0 1 0 1 0 1 1 1 1 1 1 1 1 4 0 1 0 1 0 3 0 3 1 2 1 2 0 5 1 3 0 3 1 2 0 2 1 1 1 1 1 5 1 3 1 3 0 2 0 2 0 2 1 1 1 2 0 2 1 2 1 3 1 2 1 1 1 2 1 2 1 1 0 3 0 2 0 2 1 1 1 1 1 5 0 5 0 5 0 2 0 3 1 1 0 3 1 5 1 2 0 3 0 3 0 3 1 2 1 2 1 3 1 3 0 3 1 3 0 3 1 3 0 3 0 2 1 2 1 2 1 3 1 3 1 1 1 3 1 2 1 1 1 1 1 3 1 3 1 3 1 1 0 2 1 1 1 1 1 3 0 4 1 1 1 1 1 5 1 3 1 1 0 2 1 3 0 2 1 1 0 4 0 2 1 1 1 3 1 3 1 1 1 1 1 5 1 3 1 3 0 1 1 1 0 3 1 1 0 8 0 2 1 5 0 3 0 3 0 2 1 2 0 3 0 2 1 2 1 5 1 5 0 2 1 2 1 5 0 2 1 2 1 3 1 2 1 1 1 1 1 5 0 3 0 5 1 3 1 3 1 1 1 1 1 3 1 1 1 2 1 3 1 5 1 3 1 3 0 3 1 1 1 1 1 2 1 3 0 2 1 1 1 5 0 3 1 3 1 4 1 3 1 2 1 1 0 4 1 1 0 2 0 3 0 3 0 2 1 2 0 3 0 2 1 2 0 3 0 3 1 1 0 3 1 4 1 3 1 2 0 3 0 3 0 2 0 2 0 5 0 3 1 3 1 3 1 5 1 1 1 1 1 5 0 2 1 2 1 2 1 4 1 2 1 1 0 4 1 1 0 4 1 3 1 3 1 3 1 3 0 3 1 1 1 1 0 3 1 5 0 3 1 1 1 4 0 5 0 4 1 2 0 2 1 2 1 1 1 5 0 4 0 4 1 1 0 1 1 1 1 1 1 3 1 3 1 3 0 5 1 2 0 3 0 5 1 5 0 2 1 4 0 5 0 5 1 3 0 3 0 2 1 2 1 2 1 4 1 3 1 2 1 1 1 5 1 1 1 1 0 5 1 2 0 5 0 5 0 4 0 4 1 4 1 3 1 3 1 3 1 1 0 2 1 1 1 2 1 6 0 5 1 4 0 4 0 3 1 3 0 2 1 2 0 5 1 1 0 3 1 5 0 3 1 4 0 7 0 9 1 5 0 5 1 2 1 1 1 1 ";
  "1 1 0 0 0 0 0 1 0 0 2 1 1 0 1 0 1 2 1 1 0 1 1 0 1 0 1 0 0 0 1 1 1 1 0 1 0 1 2 1 0 0 0 0 2 3 2 3 0 1 0 1 2 1 1 0 1 0 1 2 1 1 0 1 0 1 1 2 1 0 1 1 2 1 1 0 0 1 1 1 0 2 1 0 0 0 2 1 2 3 1 0 1 1 0 2 2 1 0 0 2 3 2 3 2 0 1 1 2 1 2 1 0 0 1 1 1 1 0 0 0 2 2 2 2 2 0 0 2 3 2 2 1 1 0 1 2 1 0 1 1 1 1 0 1 0 0 0 0 2 3 2 2 1 1 0 1 2 2 0 1 0 0 1 1 1 1 0 1 0 0 1 2 1 0 0 1 1 1 1 2 0 0 0 2 2 2 2 2 1 0 1 3 3 1 0 1 1 1 0 1 0 0 0 0 2 2 3 2 1 0 0 2 2 1 2 0 1 1 0 1 0 1 0 0 0 3 2 3 2 1 1 0 1 1 2 1 0 1 0 1 2 1 0 2 0 0 3 2 3 2 1 1 0 1 1 2 1 0 0 0 3 2 3 2 2 0 0 2 3 2 2 0 1 0 2 1 3 1 0 ";
  "0 2 16 83 3 12 31 56 2 40 60 2 40 60 2 16 83 6 10 10 10 10 10 50 2 12 87 3 10 31 57 3 18 36 45 3 16 16 66 3 16 16 66 5 16 16 16 16 33 3 14 14 71 6 10 10 10 10 30 30 3 11 33 55 2 25 75 6 12 12 12 12 25 25 5 11 22 22 22 22 2 33 66 2 44 55 5 10 10 20 30 30 3 11 22 66 2 35 64 2 9 90 3 18 18 63 4 16 16 33 33 5 9 9 9 18 54 2 50 50 5 10 20 20 20 30 4 15 23 23 38 1 100 6 6 6 13 13 20 40 3 21 26 52 2 50 50 6 11 11 11 11 22 33 3 18 27 54 4 11 11 33 44 5 5 15 21 26 31 5 13 13 18 18 36 "]%string.
Example golden_datas : write_datas_file (fun _ => 7) (isort Z.ltb) new_ctxs some_glyphs = Ok (Some their_datas).
Proof. vm_compute. reflexivity. Qed.
