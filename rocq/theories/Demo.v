(** A concrete environment for examples and counter-examples: IEEE arithmetic, approximations of the Unicode tables
    (Latin-1 letters, CJK, kana, CJK punctuation), and the exact float64 values of log and log2 on a list of integers. *)
From Verif Require Import M_Env M_Utf8 Ieee.
From Flocq Require Import IEEE754.BinarySingleNaN.
Local Open Scope Z_scope.

Fixpoint tab (l : list ((Z * Z) * (Z * Z))) (x : b64) : b64 :=
  match l with
  | [] => B754_nan
  | ((m, e), (m', e')) :: t => if Beqb x (lit_64 m e) then lit_64 m' e' else tab t x
  end.

Definition log_tab : list ((Z * Z) * (Z * Z)) :=
  [ ((1, 0), (0, 0));
    ((1, 1), (6243314768165359, -53));
    ((3, 0), (4947709893870347, -52));
    ((1, 2), (6243314768165359, -52));
    ((5, 0), (7248263982714163, -52));
    ((3, 1), (4034683638976513, -51));
    ((7, 0), (8763600222181975, -52));
    ((1, 3), (4682486076124019, -51));
    ((9, 0), (4947709893870347, -51));
    ((5, 1), (2592480341699211, -50));
    ((11, 0), (1349895032131027, -49));
    ((3, 2), (5595512331017853, -51));
    ((13, 0), (5775752485243985, -51));
    ((7, 1), (5942628803132327, -51));
    ((15, 0), (6097986938292255, -51));
    ((1, 4), (6243314768165359, -51));
    ((17, 0), (3189914640138173, -50));
    ((9, 1), (3254269292955843, -50));
    ((19, 0), (1657571786173643, -49));
    ((5, 2), (6745789375439761, -51));
    ((21, 0), (6855655058026161, -51));
    ((11, 1), (870051102570681, -48));
    ((23, 0), (441281580702527, -47));
    ((3, 3), (7156341023059193, -51));
    ((25, 0), (7248263982714163, -51));
    ((13, 1), (7336581177285325, -51));
    ((27, 0), (463847802550345, -47));
    ((7, 2), (7503457495173667, -51));
    ((29, 0), (7582476122586655, -51));
    ((15, 1), (7658815630333595, -51));
    ((31, 0), (3866325873628589, -50));
    ((1, 5), (7804143460206699, -51));
    ((33, 0), (7873435075459281, -51));
    ((17, 1), (3970328986158843, -50));
    ((35, 0), (8005932102448069, -51));
    ((9, 2), (4034683638976513, -50));
    ((37, 0), (8131064282924989, -51));
    ((19, 1), (1023889479591989, -48));
    ((39, 0), (4124803716089579, -50));
    ((5, 3), (8306618067481101, -51));
    ((25, 1), (8809092674755503, -51));
    ((15, 2), (4609822161187467, -50));
    ((1, 6), (4682486076124019, -50));
    ((5, 4), (1233430844940305, -48));
    ((45, 1), (316645955539649, -46));
    ((99, 0), (5173645011197227, -50));
    ((25, 2), (2592480341699211, -49));
    ((101, 0), (5196163759979057, -50));
    ((51, 1), (5207256459626429, -50));
    ((103, 0), (1304560234022139, -48));
    ((55, 1), (5292270405961265, -50));
    ((15, 3), (5390236507208137, -50));
    ((1, 7), (5462900422144689, -50));
    ((25, 3), (5965375029419091, -50));
    ((201, 0), (373186906371359, -46));
    ((101, 1), (5976578105999727, -50));
    ((203, 0), (5982138116838821, -50));
    ((105, 1), (6020307870712291, -50));
    ((1, 8), (6243314768165359, -50));
    ((75, 2), (802736019608251, -47));
    ((301, 0), (3212817457710671, -49));
    ((303, 0), (6433091233446643, -50));
    ((25, 4), (6745789375439761, -50));
    ((125, 2), (3498513339538481, -49));
    ((75, 3), (3601151251443339, -49));
    ((999, 0), (7776314561865255, -50));
    ((125, 3), (243045032034301, -45));
    ((1001, 0), (1944641590607385, -48));
    ((501, 1), (7779690576109407, -50));
    ((1003, 0), (3890406834189467, -49));
    ((505, 1), (7788644101678267, -50));
    ((275, 2), (7884750747660475, -50));
    ((375, 2), (8233954152544549, -50));
    ((125, 4), (4278927685559151, -49));
    ((2001, 0), (4279209090190565, -49));
    ((1001, 1), (4279490354225105, -49));
    ((2003, 0), (8559542955606385, -50));
    ((375, 3), (4507184249282609, -49));
    ((625, 3), (4794753510388087, -49));
    ((625, 4), (2592480341699211, -48));
    ((625, 5), (1393791964102189, -47)) ].
Definition log2_tab : list ((Z * Z) * (Z * Z)) :=
  [ ((1, 0), (0, 0));
    ((1, 1), (1, 0));
    ((3, 0), (892254565955501, -49));
    ((1, 2), (1, 1));
    ((5, 0), (5228517251457905, -51));
    ((3, 1), (1455204519376813, -49));
    ((7, 0), (6321601290437677, -51));
    ((1, 3), (3, 0));
    ((9, 0), (892254565955501, -48));
    ((5, 1), (7480317065143153, -51));
    ((11, 0), (3894973737152161, -50));
    ((3, 2), (2018154472798125, -49));
    ((13, 0), (8332649467863603, -51));
    ((7, 1), (8573401104122925, -51));
    ((15, 0), (4398767757639955, -50));
    ((1, 4), (1, 2));
    ((17, 0), (1150518508046611, -48));
    ((9, 1), (1173729542666157, -48));
    ((19, 0), (74730331119693, -44));
    ((5, 2), (4866058439414201, -50));
    ((21, 0), (4945309777129841, -50));
    ((11, 1), (5020873643994785, -50));
    ((23, 0), (5093077984921429, -50));
    ((3, 3), (2581104426219437, -49));
    ((25, 0), (5228517251457905, -50));
    ((13, 1), (5292224640774425, -50));
    ((27, 0), (2676763697866503, -49));
    ((7, 2), (2706300229452043, -49));
    ((29, 0), (5469600349857371, -50));
    ((15, 1), (5524667664482579, -50));
    ((31, 0), (2788964582172327, -49));
    ((1, 5), (5, 0));
    ((33, 0), (5679482869063163, -50));
    ((17, 1), (1431993484757267, -48));
    ((35, 0), (5775059270947791, -50));
    ((9, 2), (1455204519376813, -48));
    ((37, 0), (5865323059062629, -50));
    ((19, 1), (92322517164109, -44));
    ((39, 0), (1487708466460701, -48));
    ((5, 3), (5991958346256825, -50));
    ((25, 1), (6354417158300529, -50));
    ((15, 2), (6650567571325203, -50));
    ((1, 6), (3, 1));
    ((5, 4), (7117858253099449, -50));
    ((45, 1), (7309176796393581, -50));
    ((99, 0), (7463992000974165, -50));
    ((25, 2), (7480317065143153, -50));
    ((101, 0), (7496479688168735, -50));
    ((51, 1), (3756241535470035, -49));
    ((103, 0), (3764165160329371, -49));
    ((55, 1), (3817566134861869, -49));
    ((15, 3), (7776467478167827, -50));
    ((1, 7), (7, 0));
    ((25, 3), (8606216971985777, -50));
    ((201, 0), (8614318386346457, -50));
    ((101, 1), (8622379595011359, -50));
    ((203, 0), (4315200497538105, -49));
    ((105, 1), (8685468309701417, -50));
    ((1, 8), (1, 3));
    ((75, 2), (2316206549263539, -48));
    ((301, 0), (144847369172521, -44));
    ((303, 0), (4640494410039869, -49));
    ((25, 4), (4866058439414201, -49));
    ((125, 2), (5047287845436053, -49));
    ((75, 3), (2597681525974195, -48));
    ((999, 0), (5609425227397817, -49));
    ((125, 3), (5610237798857365, -49));
    ((1001, 0), (701381194768925, -46));
    ((501, 1), (2805930253450911, -48));
    ((1003, 0), (1403167661681419, -47));
    ((505, 1), (1404579777592539, -47));
    ((275, 2), (5687645401147657, -49));
    ((375, 2), (2969771205695777, -48));
    ((125, 4), (6173187752278677, -49));
    ((2001, 0), (6173593733344901, -49));
    ((1001, 1), (771749938946589, -46));
    ((2003, 0), (771800635895587, -46));
    ((375, 3), (3251246182406433, -48));
    ((625, 3), (6917367111721841, -49));
    ((625, 4), (7480317065143153, -49));
    ((625, 5), (8043267018564465, -49));
    ((9999, 0), (3740117922285725, -48));
    ((10001, 0), (3740199138796603, -48));
    ((625, 6), (8606216971985777, -49)) ].

(** math.Log(0) = -Inf, math.Log(x<0) = NaN. *)
Definition demo_log (t : list ((Z * Z) * (Z * Z))) (x : b64) : b64 :=
  if Beqb x (lit_64 0 0) then B754_infinity true else tab t x.

(** Unsigned decimal integers only; anything else is a parse error with value 0. *)
Fixpoint dec (acc : Z) (s : bytes) : option Z :=
  match s with
  | [] => Some acc
  | b :: t => if in_range 48 57 (bz b) then dec (acc * 10 + (bz b - 48)) t else None
  end.
Definition demo_parse (s : bytes) : b64 * bool :=
  match s with
  | [] => (lit_64 0 0, true)
  | _ => match dec 0 s with Some z => (lit_64 z 0, false) | None => (lit_64 0 0, true) end
  end.

Definition demo_han (r : rune) : bool := in_range 19968 40959 r.
Definition demo_kana (r : rune) : bool := in_range 12353 12447 r || in_range 12449 12538 r.

Definition demo : env := {|
  ar := ieee;
  u_letter := fun r => in_range 192 591 r || in_range 913 1103 r || demo_han r || demo_kana r || in_range 44032 55203 r;
  u_number := fun r => in_range 178 179 r || in_range 188 190 r || in_range 65296 65305 r;
  u_space := fun r => (r =? 133) || (r =? 160) || (r =? 12288);
  u_punct := fun r => in_range 12289 12291 r || in_range 8208 8231 r || (r =? 65292) || (r =? 65281) || (r =? 65311) || (r =? 65306);
  u_symbol := fun r => (r =? 65291) || in_range 8592 8703 r || in_range 128512 128591 r || in_range 9728 9983 r;
  u_lower := fun r => if in_range 192 222 r && negb (r =? 215) then r + 32 else if in_range 913 929 r then r + 32 else r;
  u_han := demo_han;
  u_kana := demo_kana;
  u_script := fun l => if beqb l [x48; x61; x6e] then Some demo_han else None;
  m_log := demo_log log_tab;
  m_log2 := demo_log log2_tab;
  parse_float := demo_parse;
  q_drop := true;
  q_eof := false
|}.
