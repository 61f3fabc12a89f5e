(** Model of the gain tables: lib/src/radio/gain_lut.cpp and the tables of lib/include/dectnrp/radio/calibration. Numbers are
    rational and exact; frequencies are in MHz. Rounding of floats is not modelled. *)
From Verif Require Import Base.
From Coq Require Import QArith Qabs Qround Qminmax.
Open Scope Q_scope.

(** gain_lut.hpp 78-83: interpolation_points_t *)
Record points := mkPoints { p_left : nat; p_right : nat; p_wl : Q; p_wr : Q }.
(** gain_lut.cpp 88-93: the first element greater than the value *)
Fixpoint first_greater (v : Q) (i : nat) (l : list Q) : option nat :=
  match l with [] => None | x :: l => if negb (Qle_bool x v) then Some i else first_greater v (S i) l end.
(** gain_lut.cpp 81-82: the limits *)
Definition limit (lo hi v : Q) : Q := Qmin hi (Qmax lo v).
(** gain_lut.cpp 78-111: get_interpolation_points. idx_left is signed in the code: -1 is out of bounds. *)
Definition get_interpolation_points (vec : list Q) (value : Q) : res points :=
  do front <- rd vec 0 ;
  do back <- rd vec (length vec - 1) ;
  let v := limit front back value in
  match match first_greater v 0 vec with Some i => i | None => (length vec - 1)%nat end with
  | O => Oob
  | S il =>
      do l <- rd vec il ;
      do r <- rd vec (S il) ;
      let dl := v - l in
      let dr := r - v in
      let wl := if negb (Qle_bool (dl + dr) 0) then dr / (dl + dr) else 0 in
      Ok (mkPoints il (S il) wl (1 - wl))
  end.
(** gain_lut.cpp 113-117: interpolate *)
Definition interpolate (vec : list Q) (p : points) : res Q :=
  do l <- rd vec (p_left p) ; do r <- rd vec (p_right p) ; Ok (l * p_wl p + r * p_wr p).
(** gain_lut.cpp 67: std::round, away from zero at a half *)
Definition round (x : Q) : Z := if Qle_bool 0 x then Qfloor (x + (1 # 2)) else Qceiling (x - (1 # 2)).
(** gain_lut.cpp 39-76: get_achievable_power_gain_xx, the power and the gain *)
Definition achievable (freqs : list Q) (gains powers : list (list Q)) (step power freq : Q) : res (Q * Q) :=
  do f <- get_interpolation_points freqs freq ;
  do pl <- rd powers (p_left f) ;
  do pr <- rd powers (p_right f) ;
  do ipl <- get_interpolation_points pl power ;
  do ipr <- get_interpolation_points pr power ;
  do power_l <- interpolate pl ipl ;
  do power_r <- interpolate pr ipr ;
  do gl <- rd gains (p_left f) ;
  do gr <- rd gains (p_right f) ;
  do gain_l <- interpolate gl ipl ;
  do gain_r <- interpolate gr ipr ;
  let pw := power_l * p_wl f + power_r * p_wr f in
  let gain := gain_l * p_wl f + gain_r * p_wr f in
  let stepped := inject_Z (round (gain / step)) * step in
  Ok (pw + (stepped - gain), stepped).

(** ** The tables *)
(** Simplification: the values of a row are written in tenths of dB, dBm or MHz. *)
Definition row (l : list Z) : list Q := map (fun x => x # 10) l.
(** gain_lut.hpp 47-67: the pointers are replaced by the tables; the step widths of both directions are 1.0 in every header. *)
Record table := mkTable { t_freqs : list Q; t_gains_tx : list (list Q); t_powers_tx : list (list Q); t_gains_rx : list (list Q); t_powers_rx : list (list Q); t_step : Q }.

(** calibration/cal_simulator.hpp 29-37 *)
Definition simulator : table := mkTable
    (row [1000; 60000]%Z)
    [row [0; 600]%Z;
     row [0; 600]%Z]
    [row [(-400); 200]%Z;
     row [(-400); 200]%Z]
    [row [700; 0]%Z;
     row [700; 0]%Z]
    [row [(-600); 100]%Z;
     row [(-600); 100]%Z]
    1.

(** calibration/cal_usrp_n310.hpp 29-89 *)
Definition n310 : table := mkTable
    (row [5000; 10000; 15000; 20000; 25000; 30000; 35000; 40000; 45000; 50000; 55000; 60000]%Z)
    [row [0; 50; 100; 150; 200; 250; 300; 350; 400; 450]%Z;
     row [0; 50; 100; 150; 200; 250; 300; 350; 400; 450; 500]%Z;
     row [0; 50; 100; 150; 200; 250; 300; 350; 400; 450; 500]%Z;
     row [0; 50; 100; 150; 200; 250; 300; 350; 400; 450; 500]%Z;
     row [0; 50; 100; 150; 200; 250; 300; 350; 400; 450; 500; 550]%Z;
     row [0; 50; 100; 150; 200; 250; 300; 350; 400; 450; 500; 550]%Z;
     row [0; 50; 100; 150; 200; 250; 300; 350; 400; 450; 500; 550]%Z;
     row [0; 50; 100; 150; 200; 250; 300; 350; 400; 450; 500; 550]%Z;
     row [0; 50; 100; 150; 200; 250; 300; 350; 400; 450; 500; 550; 600]%Z;
     row [0; 50; 100; 150; 200; 250; 300; 350; 400; 450; 500; 550; 600]%Z;
     row [0; 50; 100; 150; 200; 250; 300; 350; 400; 450; 500; 550; 600]%Z;
     row [0; 50; 100; 150; 200; 250; 300; 350; 400; 450; 500; 550; 600]%Z]
    [row [(-320); (-280); (-220); (-180); (-120); (-80); (-20); 80; 120; 160]%Z;
     row [(-320); (-280); (-220); (-180); (-120); (-80); (-20); 60; 110; 150; 180]%Z;
     row [(-340); (-290); (-240); (-190); (-140); (-90); (-40); 30; 80; 130; 180]%Z;
     row [(-340); (-300); (-250); (-200); (-140); (-100); (-50); 30; 90; 130; 180]%Z;
     row [(-360); (-310); (-260); (-220); (-160); (-120); (-70); 10; 50; 110; 160; 180]%Z;
     row [(-390); (-340); (-280); (-230); (-180); (-140); (-90); (-20); 30; 80; 130; 160]%Z;
     row [(-380); (-330); (-280); (-230); (-170); (-130); (-80); (-10); 30; 90; 130; 160]%Z;
     row [(-420); (-360); (-320); (-260); (-210); (-160); (-110); (-40); 0; 50; 100; 130]%Z;
     row [(-450); (-400); (-350); (-300); (-250); (-200); (-150); (-90); (-30); 10; 60; 100; 130]%Z;
     row [(-470); (-420); (-360); (-310); (-260); (-210); (-150); (-120); (-80); (-20); 20; 70; 110]%Z;
     row [(-470); (-410); (-360); (-300); (-260); (-200); (-150); (-100); (-60); (-10); 40; 80; 130]%Z;
     row [(-470); (-410); (-360); (-300); (-260); (-200); (-150); (-120); (-70); (-20); 30; 70; 120]%Z]
    [row [750; 0]%Z;
     row [750; 0]%Z;
     row [750; 0]%Z;
     row [750; 0]%Z;
     row [750; 0]%Z;
     row [750; 0]%Z;
     row [750; 0]%Z;
     row [750; 0]%Z;
     row [750; 0]%Z;
     row [750; 0]%Z;
     row [750; 0]%Z;
     row [750; 0]%Z]
    [row [(-362); 388]%Z;
     row [(-356); 394]%Z;
     row [(-353); 397]%Z;
     row [(-336); 414]%Z;
     row [(-332); 418]%Z;
     row [(-320); 430]%Z;
     row [(-312); 438]%Z;
     row [(-312); 438]%Z;
     row [(-312); 438]%Z;
     row [(-301); 449]%Z;
     row [(-284); 466]%Z;
     row [(-269); 481]%Z]
    1.

(** calibration/cal_usrp_n320.hpp 29-89 *)
Definition n320 : table := mkTable
    (row [5000; 10000; 15000; 20000; 25000; 30000; 35000; 40000; 45000; 50000; 55000; 60000]%Z)
    [row [0; 50; 100; 150; 200; 250; 300; 350; 400; 450; 500; 550; 600]%Z;
     row [0; 50; 100; 150; 200; 250; 300; 350; 400; 450; 500; 550; 600]%Z;
     row [0; 50; 100; 150; 200; 250; 300; 350; 400; 450; 500; 550; 600]%Z;
     row [0; 50; 100; 150; 200; 250; 300; 350; 400; 450; 500; 550; 600]%Z;
     row [0; 50; 100; 150; 200; 250; 300; 350; 400; 450; 500; 550; 600]%Z;
     row [0; 50; 100; 150; 200; 250; 300; 350; 400; 450; 500; 550; 600]%Z;
     row [0; 50; 100; 150; 200; 250; 300; 350; 400; 450; 500; 550; 600]%Z;
     row [0; 50; 100; 150; 200; 250; 300; 350; 400; 450; 500; 550; 600]%Z;
     row [0; 50; 100; 150; 200; 250; 300; 350; 400; 450; 500; 550; 600]%Z;
     row [0; 50; 100; 150; 200; 250; 300; 350; 400; 450; 500; 550; 600]%Z;
     row [0; 50; 100; 150; 200; 250; 300; 350; 400; 450; 500; 550; 600]%Z;
     row [0; 50; 100; 150; 200; 250; 300; 350; 400; 450; 500; 550; 600]%Z]
    [row [(-350); (-300); (-250); (-200); (-150); (-100); (-50); 0; 50; 100; 150; 180; 200]%Z;
     row [(-360); (-280); (-220); (-180); (-120); (-80); (-20); 60; 110; 150; 130; 170; 190]%Z;
     row [(-370); (-320); (-270); (-220); (-170); (-120); (-70); (-20); 30; 80; 130; 170; 190]%Z;
     row [(-350); (-300); (-250); (-200); (-150); (-100); (-50); 0; 50; 100; 140; 170; 190]%Z;
     row [(-360); (-310); (-260); (-220); (-160); (-120); (-70); 10; 50; 110; 130; 170; 190]%Z;
     row [(-360); (-310); (-260); (-210); (-160); (-110); (-60); (-10); 40; 90; 140; 170; 190]%Z;
     row [(-370); (-330); (-280); (-230); (-170); (-130); (-80); (-10); 30; 90; 130; 160; 180]%Z;
     row [(-400); (-350); (-300); (-250); (-200); (-150); (-100); (-50); 0; 50; 100; 150; 170]%Z;
     row [(-370); (-320); (-270); (-220); (-170); (-120); (-70); (-20); 30; 80; 130; 160; 180]%Z;
     row [(-400); (-350); (-290); (-240); (-190); (-140); (-90); (-30); 20; 70; 120; 160; 180]%Z;
     row [(-440); (-390); (-340); (-280); (-230); (-180); (-130); (-80); (-20); 30; 80; 130; 150]%Z;
     row [(-470); (-420); (-370); (-320); (-260); (-210); (-150); (-100); (-50); 0; 50; 100; 150]%Z]
    [row [600; 0]%Z;
     row [600; 0]%Z;
     row [600; 0]%Z;
     row [600; 0]%Z;
     row [600; 0]%Z;
     row [600; 0]%Z;
     row [600; 0]%Z;
     row [600; 0]%Z;
     row [600; 0]%Z;
     row [600; 0]%Z;
     row [600; 0]%Z;
     row [600; 0]%Z]
    [row [(-435); 165]%Z;
     row [(-453); 147]%Z;
     row [(-443); 157]%Z;
     row [(-429); 171]%Z;
     row [(-433); 167]%Z;
     row [(-429); 171]%Z;
     row [(-431); 169]%Z;
     row [(-406); 194]%Z;
     row [(-410); 190]%Z;
     row [(-412); 188]%Z;
     row [(-382); 218]%Z;
     row [(-325); 275]%Z]
    1.

(** calibration/cal_usrp_x410.hpp 29-89 *)
Definition x410 : table := mkTable
    (row [5000; 10000; 15000; 20000; 25000; 30000; 35000; 40000; 45000; 50000; 55000; 60000]%Z)
    [row [0; 50; 100; 150; 200; 250; 300; 350; 400; 450; 500; 550; 600]%Z;
     row [0; 50; 100; 150; 200; 250; 300; 350; 400; 450; 500; 550; 600]%Z;
     row [0; 50; 100; 150; 200; 250; 300; 350; 400; 450; 500; 550; 600]%Z;
     row [0; 50; 100; 150; 200; 250; 300; 350; 400; 450; 500; 550; 600]%Z;
     row [0; 50; 100; 150; 200; 250; 300; 350; 400; 450; 500; 550; 600]%Z;
     row [0; 50; 100; 150; 200; 250; 300; 350; 400; 450; 500; 550; 600]%Z;
     row [0; 50; 100; 150; 200; 250; 300; 350; 400; 450; 500; 550; 600]%Z;
     row [0; 50; 100; 150; 200; 250; 300; 350; 400; 450; 500; 550; 600]%Z;
     row [0; 50; 100; 150; 200; 250; 300; 350; 400; 450; 500; 550; 600]%Z;
     row [0; 50; 100; 150; 200; 250; 300; 350; 400; 450; 500; 550; 600]%Z;
     row [0; 50; 100; 150; 200; 250; 300; 350; 400; 450; 500; 550; 600]%Z;
     row [0; 50; 100; 150; 200; 250; 300; 350; 400; 450; 500; 550; 600]%Z]
    [row [(-425); (-405); (-375); (-325); (-275); (-230); (-170); (-130); (-80); (-30); 18; 68; 118]%Z;
     row [(-400); (-350); (-315); (-265); (-215); (-165); (-115); (-68); (-18); 31; 80; 128; 175]%Z;
     row [(-400); (-375); (-325); (-275); (-230); (-180); (-130); (-80); (-30); 17; 66; 115; 162]%Z;
     row [(-400); (-350); (-310); (-265); (-215); (-165); (-115); (-65); (-15); 34; 83; 132; 180]%Z;
     row [(-400); (-370); (-325); (-270); (-230); (-180); (-130); (-75); (-28); 21; 72; 121; 168]%Z;
     row [(-420); (-410); (-400); (-380); (-330); (-280); (-230); (-180); (-130); (-80); (-28); 20; 72]%Z;
     row [(-400); (-380); (-340); (-280); (-230); (-185); (-135); (-80); (-32); 18; 66; 92; 140]%Z;
     row [(-410); (-390); (-360); (-320); (-270); (-220); (-170); (-118); (-65); (-15); 33; 83; 132]%Z;
     row [(-410); (-390); (-350); (-310); (-270); (-210); (-165); (-110); (-61); (-5); 48; 100; 150]%Z;
     row [(-420); (-410); (-390); (-350); (-300); (-250); (-200); (-150); (-100); (-50); 0; 50; 100]%Z;
     row [(-420); (-420); (-400); (-370); (-330); (-280); (-230); (-175); (-120); (-67); (-16); 36; 88]%Z;
     row [(-420); (-410); (-390); (-370); (-320); (-270); (-220); (-170); (-110); (-60); (-5); 46; 96]%Z]
    [row [380; 0]%Z;
     row [600; 0]%Z;
     row [600; 0]%Z;
     row [600; 0]%Z;
     row [600; 0]%Z;
     row [600; 0]%Z;
     row [600; 0]%Z;
     row [600; 0]%Z;
     row [600; 0]%Z;
     row [600; 0]%Z;
     row [600; 0]%Z;
     row [600; 0]%Z]
    [row [(-350); 30]%Z;
     row [(-516); 84]%Z;
     row [(-514); 86]%Z;
     row [(-544); 56]%Z;
     row [(-546); 54]%Z;
     row [(-360); 240]%Z;
     row [(-498); 112]%Z;
     row [(-482); 118]%Z;
     row [(-486); 114]%Z;
     row [(-476); 124]%Z;
     row [(-468); 132]%Z;
     row [(-452); 148]%Z]
    1.

(** calibration/cal_usrp_b210.hpp 29-89 *)
Definition b210 : table := mkTable
    (row [5000; 10000; 15000; 20000; 25000; 30000; 35000; 40000; 45000; 50000; 55000; 60000]%Z)
    [row [270; 330; 390; 450; 510; 570; 630; 690; 750; 810; 870; 900]%Z;
     row [270; 330; 390; 450; 510; 570; 630; 690; 750; 810; 870; 900]%Z;
     row [270; 330; 390; 450; 510; 570; 630; 690; 750; 810; 870; 900]%Z;
     row [270; 330; 390; 450; 510; 570; 630; 690; 750; 810; 870; 900]%Z;
     row [270; 330; 390; 450; 510; 570; 630; 690; 750; 810; 870; 900]%Z;
     row [270; 330; 390; 450; 510; 570; 630; 690; 750; 810; 870; 900]%Z;
     row [270; 330; 390; 450; 510; 570; 630; 690; 750; 810; 870; 900]%Z;
     row [270; 330; 390; 450; 510; 570; 630; 690; 750; 810; 870; 900]%Z;
     row [270; 330; 390; 450; 510; 570; 630; 690; 750; 810; 870; 900]%Z;
     row [270; 330; 390; 450; 510; 570; 630; 690; 750; 810; 870; 900]%Z;
     row [270; 330; 390; 450; 510; 570; 630; 690; 750; 810; 870; 900]%Z;
     row [270; 330; 390; 450; 510; 570; 630; 690; 750; 810; 870; 900]%Z]
    [row [(-400); (-340); (-280); (-220); (-160); (-100); (-40); 20; 80; 150; 170; 180]%Z;
     row [(-420); (-340); (-280); (-220); (-180); (-120); (-60); 0; 60; 110; 170; 170]%Z;
     row [(-430); (-370); (-310); (-250); (-200); (-130); (-70); (-10); 50; 100; 170; 170]%Z;
     row [(-450); (-390); (-350); (-290); (-230); (-170); (-110); (-50); 0; 60; 120; 150]%Z;
     row [(-500); (-430); (-370); (-310); (-250); (-190); (-130); (-70); (-20); 40; 100; 130]%Z;
     row [(-460); (-400); (-350); (-290); (-230); (-170); (-110); (-60); 0; 60; 130; 150]%Z;
     row [(-470); (-410); (-370); (-310); (-250); (-190); (-130); (-70); (-10); 50; 110; 140]%Z;
     row [(-470); (-410); (-350); (-290); (-240); (-180); (-110); (-50); 10; 70; 120; 150]%Z;
     row [(-460); (-400); (-350); (-300); (-230); (-170); (-100); (-50); 10; 70; 120; 150]%Z;
     row [(-460); (-420); (-360); (-300); (-250); (-190); (-120); (-60); 0; 50; 100; 130]%Z;
     row [(-500); (-450); (-390); (-330); (-260); (-200); (-130); (-70); (-10); 40; 80; 100]%Z;
     row [(-510); (-450); (-390); (-330); (-270); (-210); (-150); (-80); (-20); 20; 70; 100]%Z]
    [row [760; 0]%Z;
     row [760; 0]%Z;
     row [760; 0]%Z;
     row [760; 0]%Z;
     row [760; 0]%Z;
     row [760; 0]%Z;
     row [760; 0]%Z;
     row [760; 0]%Z;
     row [760; 0]%Z;
     row [760; 0]%Z;
     row [760; 0]%Z;
     row [760; 0]%Z]
    [row [(-673); 87]%Z;
     row [(-669); 91]%Z;
     row [(-636); 124]%Z;
     row [(-634); 126]%Z;
     row [(-620); 140]%Z;
     row [(-578); 182]%Z;
     row [(-557); 203]%Z;
     row [(-571); 189]%Z;
     row [(-551); 209]%Z;
     row [(-557); 203]%Z;
     row [(-543); 217]%Z;
     row [(-515); 245]%Z]
    1.

(** gain_lut.cpp 27-31 and 33-37: which table serves which direction; hw_simulator.cpp 60-68 and hw_usrp.cpp 77-161 fill them. *)
Inductive direction := TX | RX.
Definition lut (t : table) (x : direction) (power freq : Q) : res (Q * Q) :=
  match x with
  | TX => achievable (t_freqs t) (t_gains_tx t) (t_powers_tx t) (t_step t) power freq
  | RX => achievable (t_freqs t) (t_gains_rx t) (t_powers_rx t) (t_step t) power freq
  end.

(** ** One antenna of a USRP, one direction *)
(** hw.hpp 290-291 and the state kept by the device: the frequency, the reported power at full scale and the gain last
    written to the device, None as long as none was written. *)
Record dev := mkDev { d_freq : Q; d_power : Q; d_gain : option Q }.
(** hw_usrp.cpp 545-560 (TX) and 562-577 (RX): set_tx_power_ant_0dBFS_tc, set_rx_power_ant_0dBFS_tc. The device is taken to
    be tuned exactly to the wanted frequency. *)
Definition set_power (t : table) (x : direction) (d : dev) (power : Q) : res dev :=
  do a <- lut t x power (d_freq d) ;
  if negb (Qle_bool (t_step t) (Qabs (fst a - d_power d))) then Ok d
  else Ok (mkDev (d_freq d) (fst a) (Some (snd a))).
(** hw_usrp.cpp 526-543: set_freq_tc. Power and gain stay. *)
Definition set_freq (d : dev) (f : Q) : dev := mkDev f (d_power d) (d_gain d).
(** hw.cpp 53-63 and 73-83: adjust_tx_power_ant_0dBFS_tc, adjust_rx_power_ant_0dBFS_tc, for one antenna *)
Definition adjust (t : table) (x : direction) (d : dev) (a : Q) : res dev :=
  if Qeq_bool a 0 then Ok d else set_power t x d (d_power d + a).
(** hw.cpp 41-42 and common/ant.hpp: the reported powers start at zero; hw.hpp 73 and hw_usrp.cpp: the default frequency;
    hw_usrp.cpp 410-411: lowest transmit power, lowest receiver sensitivity *)
Definition created : dev := mkDev 100 0 None.
Definition initialized (t : table) (x : direction) : res dev :=
  set_power t x created match x with TX => -1000 | RX => 1000 end.
(** The commands a firmware gives. *)
Inductive cmd := Tune (f : Q) | Set_ (p : Q) | Adjust (a : Q).
Definition command (t : table) (x : direction) (d : dev) (c : cmd) : res dev :=
  match c with
  | Tune f => Ok (set_freq d f)
  | Set_ p => set_power t x d p
  | Adjust a => adjust t x d a
  end.
Fixpoint commands (t : table) (x : direction) (d : dev) (cs : list cmd) : res dev :=
  match cs with [] => Ok d | c :: cs => do d' <- command t x d c ; commands t x d' cs end.
