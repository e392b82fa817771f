(** Pole tide and ocean pole tide: include/pole_tide.hpp, include/eop.hpp:37-42, src/lib/pole_tide/*.cpp.
    Real arithmetic. The epoch enters through [dt], the years since J2000 (datetime library). *)
From Coq Require Import Ascii String Reals ZArith List Bool.
From Verif Require Import Base StorageModel MatrixModel CString FromChars.
From Verif Require AtlasModel IcgemModel.
Import ListNotations.
Open Scope Z_scope.

(** ** wobble *)
(** include/eop.hpp:37-42 secular_pole, in milliarcseconds *)
Definition secular_pole (dt : R) : R * R := ((55 + 1.677 * dt)%R, (320.5 + 3.460 * dt)%R).
(** pole_tide.hpp:35-40 *)
Definition mcoeffs (dt xp yp : R) : R * R :=
  let s := secular_pole dt in ((xp - fst s * 0.001)%R, (- (yp - snd s * 0.001))%R).
(** pole_tide.hpp:135-143 PoleTide::stokes_coeffs *)
Definition solid_coeffs (dt xp yp : R) : R * R :=
  let m := mcoeffs dt xp yp in
  ((-1.333e-9 * (fst m + 0.0115 * snd m))%R, (-1.333e-9 * (snd m - 0.0115 * fst m))%R).
(** pole_tide.hpp:248-257 OceanPoleTide::stokes_coeffs (static) *)
Definition ocean_coeffs21 (dt xp yp : R) : R * R :=
  let m := mcoeffs dt xp yp in
  ((-2.1778e-10 * (fst m - 0.01724 * snd m))%R, (-1.7232e-10 * (snd m - 0.03365 * fst m))%R).

(** ** displacement *)
Definition vec : Type := R * R * R.
(** 3x3 matrix (rows) times vector *)
Definition mulv (m : vec * vec * vec) (v : vec) : vec :=
  let '(a, b, c) := m in
  let dotp (r v : vec) := let '(x, y, z) := r in let '(u, v, w) := v in (x * u + y * v + z * w)%R in
  (dotp a v, dotp b v, dotp c v).
Definition scalev (k : R) (v : vec) : vec := let '(x, y, z) := v in (x * k, y * k, z * k)%R.
(** pole_tide_deformation.cpp:3-41 *)
Definition solid_deformation (dt xp yp lat lon : R) : vec :=
  let m := mcoeffs dt xp yp in
  let m1 := fst m in let m2 := snd m in
  let theta := (PI / 2 - lat)%R in
  let sl := sin lon in let cl := cos lon in let st := sin theta in let ct := cos theta in
  let s2t := (2 * st * ct)%R in let c2t := (2 * ct * ct - 1)%R in
  let s0 := (-9 * c2t * (m1 * cl + m2 * sl))%R in
  let s1 := (9 * ct * (m1 * sl - m2 * cl))%R in
  let s2 := (-33 * s2t * (m1 * cl + m2 * sl))%R in
  scalev 0.001 (mulv ((ct * cl, - sl, st * cl), (ct * sl, cl, st * sl), (- st, 0, ct))%R (s0, s1, s2)).
(** sec2rad (geodesy library) *)
Definition sec2rad (s : R) : R := (s * PI / 648000)%R.
(** OceanPoleTideDesaiCoeffs: pole_tide.hpp:115-117 *)
Record desai := mkDs { rR : R; rI : R; nR : R; nI : R; eR : R; eI : R }.
(** m1 gamma2R + m2 gamma2I and m2 gamma2R - m1 gamma2I: ocean_pole_tide_geopotential.cpp:210-219,
    ocean_pole_tide_deformation.cpp:14-35 *)
Definition freal (dt xp yp : R) : R :=
  let m := mcoeffs dt xp yp in (sec2rad (fst m) * 0.6870 + sec2rad (snd m) * 0.0036)%R.
Definition fimag (dt xp yp : R) : R :=
  let m := mcoeffs dt xp yp in (sec2rad (snd m) * 0.6870 - sec2rad (fst m) * 0.0036)%R.
(** ocean_pole_tide_deformation.cpp:5-42; [rot]: geodetic2lvlh (geodesy library) at the site *)
Definition ocean_deformation (dt xp yp : R) (c : desai) (rot : vec * vec * vec) (Re GM Omega G ge : R) : vec :=
  let Hp := (sqrt (4 * (2 * PI) / 15) * (Omega * Omega) * Re ^ 4 / GM)%R in
  let K := (2 * (2 * PI) * G * Re * 1025 * Hp / 3 / ge)%R in
  let fr := freal dt xp yp in let fi := fimag dt xp yp in
  let s := (fr * eR c + fi * eI c, fr * nR c + fi * nI c, fr * rR c + fi * rI c)%R in
  scalev K (mulv rot s).

(** ** ocean pole tide coefficients *)
(** ocean_pole_tide_geopotential.cpp:6-189: load Love numbers, times 10^12 *)
Definition kn_table : list Z := [
  -1000000000000; -1000000000000; -305402019500; -196029404100; -133665268900; -104706626700; -90335644290;
  -82069848040; -76554946440; -72438448150; -69134014660; -66358698190; -63956898770; -61832966410;
  -59921722010; -58177725160; -56567042050; -55064741100; -53652050580; -52314794220; -51042042790;
  -49825626700; -48659191310; -47537646520; -46457285560; -45414833590; -44408185280; -43434876030;
  -42493478230; -41582320610; -40700345570; -39846458320; -39019377590; -38218275090; -37442176490;
  -36690342060; -35961864740; -35255944120; -34571875760; -33908826310; -33266099090; -32642999230;
  -32038831740; -31452932800; -30884638960; -30333341910; -29798421080; -29279293730; -28775390040;
  -28286158680; -27811081920; -27349633530; -26901336370; -26465709450; -26042294180; -25630666300;
  -25230394520; -24841077740; -24462331270; -24093777950; -23735064050; -23385845300; -23045793090;
  -22714590300; -22391936330; -22077539190; -21771119370; -21472409080; -21181151700; -20897101390;
  -20620020590; -20349682200; -20085868070; -19828368950; -19576983190; -19331517280; -19091785440;
  -18857609220; -18628817060; -18405242750; -18186727810; -17973121610; -17764272770; -17560041640;
  -17360291750; -17164891630; -16973714980; -16786639420; -16603547440; -16424325600; -16248864780;
  -16077059110; -15908806880; -15744009760; -15582573060; -15424404860; -15269416730; -15117523090;
  -14968641460; -14822691680; -14679596560; -14539281350; -14401673870; -14266704010; -14134304110;
  -14004408610; -13876954160; -13751879180; -13629124160; -13508631420; -13390345160; -13274211070;
  -13160176690; -13048191060; -12938204880; -12830170140; -12724040380; -12619770500; -12517316780;
  -12416636640; -12317688860; -12220433360; -12124831270; -12030844760; -11938437100; -11847572600;
  -11758219830; -11670338920; -11583899970; -11498871180; -11415221550; -11332921030; -11251940190;
  -11172250530; -11093824280; -11016634540; -10940654880; -10865859760; -10792224240; -10719724120;
  -10648335700; -10578035970; -10508802500; -10440613520; -10373447650; -10307284180; -10242102880;
  -10177884100; -10114608540; -10052257490; -9990812687; -9930256346; -9870571027; -9811739803; -9753746115;
  -9696573861; -9640207245; -9584630905; -9529829829; -9475790189; -9422496073; -9369934305; -9318091242;
  -9266953580; -9216508278; -9166742633; -9117644217; -9069200890; -9021400853; -8974232435; -8927684326;
  -8881745447; -8836405029; -8791653407; -8747481667; -8703874181; -8660824198; -8618321971; -8576358051;
  -8534923154; -8494008256; -8453604422; -8413702992; -8374295452; -8335373508; -8296928978; -8258953895;
  -8221440446; -8184381010; -8147768058; -8111594272; -8075852456; -8040535598; -8005636771; -7971149225;
  -7937066335; -7903381636; -7870088750; -7837181442; -7804653597; -7772499254; -7740712516; -7709287634;
  -7678218959; -7647500968; -7617128214; -7587095379; -7557397242; -7528028665; -7498984668; -7470260263;
  -7441850636; -7413751027; -7385956807; -7358463369; -7331266234; -7304360991; -7277743343; -7251409005;
  -7225353835; -7199573711; -7174064656; -7148822685; -7123843938; -7099129566; -7074666551; -7050455306;
  -7026492490; -7002774540; -6979298005; -6956059431; -6933055469; -6910282814; -6887738228; -6865418504;
  -6843320529; -6821441187; -6799777491; -6778326425; -6757085071; -6736050549; -6715220049; -6694590762;
  -6674159952; -6653925199; -6633883871; -6614032563; -6594369232; -6574891356; -6555596461; -6536482218;
  -6517546015; -6498785614; -6480198683; -6461782835; -6443535971; -6425455846; -6407540263; -6389786969;
  -6372194033; -6354759310; -6337480778; -6320356275; -6303384010; -6286561980; -6269888285; -6253360871;
  -6236978078; -6220737994; -6204638851; -6188678733; -6172856062; -6157169047; -6141616004; -6126195168;
  -6110905001; -6095743854; -6080714363; -6065808661; -6051025499; -6036365150; -6021826113; -6007406839;
  -5993105878; -5978921847; -5964853301; -5950898825; -5937057006; -5923326579; -5909706151; -5896194416;
  -5882789995; -5869491718; -5856298304; -5843208448; -5830220904; -5817334546; -5804548161; -5791860577;
  -5779270522; -5766776986; -5754378816; -5742074899; -5729864025; -5717745257; -5705717481; -5693779662;
  -5681930652; -5670169557; -5658495321; -5646906981; -5635403426; -5623983856; -5612647214; -5601392619;
  -5590219039; -5579125640; -5568111507; -5557175755; -5546317422; -5535535712; -5524829768; -5514198739;
  -5503641734; -5493157962; -5482746632; -5472406939; -5462138054; -5451939170; -5441809594; -5431748532;
  -5421755212; -5411828857; -5401975569; -5392181719; -5382453176; -5372788210; -5363186748; -5353648059;
  -5344171504; -5334756310; -5325401926; -5316107680; -5306872920; -5297696936; -5288579215; -5279519432;
  -5270516389; -5261569543; -5252678535; -5243842709; -5235061516; -5226334273; -5217660524; -5209039665;
  -5200471169; -5191954431; -5183488963; -5175074221; -5166709698; -5158394787].
Definition kn (k : Z) : R := (IZR k / 10 ^ 12)%R.

(** OceanPoleTide: pole_tide.hpp:151-170. oC, oS: the matrices of mcs; csdeg: its degree *)
Record opt := mkOpt { odeg : Z; oord : Z; csdeg : Z; oC : mat; oS : mat; Ar : mat; Ai : mat; Br : mat; Bi : mat }.
Definition put (h : mem R) (m : mat) (i j : Z) (c : cell R) : res (mem R) := store R h (ptr m) (index (st m) i j) c.
(** ocean_pole_tide_geopotential.cpp:228-231: knfac[l] * (X_real(l, m) * freal + X_imag(l, m) * fimag) *)
Definition combination (h : mem R) (re im : mat) (l m : Z) (k : cell R) (fr fi : R) : res (cell R) :=
  a <- get R h re l m ;; b <- get R h im l m ;;
  Ok (lift2 R Rmult k (lift2 R Rplus (lift2 R Rmult a (Some fr)) (lift2 R Rmult b (Some fi)))).
Definition fill_one (o : opt) (fr fi : R) (h : mem R) (l m : Z) (k : cell R) : res (mem R) :=
  c <- combination h (Ar o) (Ai o) l m k fr fi ;; h1 <- put h (oC o) l m c ;;
  s <- combination h1 (Br o) (Bi o) l m k fr fi ;; put h1 (oS o) l m s.
(** lines 221-232: knfac_arr has MAX_DEGREE_DESAI_2002 = 360 elements, kn has 361 *)
Definition order_zero (o : opt) (fr fi : R) (x : mem R * list (cell R)) (l : Z) : res (mem R * list (cell R)) :=
  let (h, kf) := x in
  match znth kn_table l with
  | None => UB
  | Some k =>
      let v := Some ((1 + kn k) / IZR (2 * l + 1))%R in
      if (0 <=? l) && (l <? Z.of_nat (length kf)) then
        h' <- fill_one o fr fi h l 0 v ;; Ok (h', upd kf (Z.to_nat l) v)
      else UB
  end.
(** lines 235-245 *)
Definition other_orders (o : opt) (fr fi : R) (kf : list (cell R)) (h : mem R) (x : Z * Z) : res (mem R) :=
  let (m, l) := x in
  match znth kf l with None => UB | Some k => fill_one o fr fi h l m k end.
Definition positions (md mo : Z) : list (Z * Z) := flat_map (fun m => map (fun l => (m, l)) (zrange2 m (md + 1))) (zrange2 1 (mo + 1)).
(** stokes_coefficients.hpp:201-206 *)
Definition scale (o : opt) (f : R) (h : mem R) : res (mem R) :=
  if csdeg o =? 0 then Ok h else h1 <- multiply R Rmult h (oC o) f ;; multiply R Rmult h1 (oS o) f.
(** lines 190-254: new memory and return code; [fac]: the constant factor *)
Definition opt_factor (Re GM Omega G ge : R) : R := (((Omega * Omega) * Re ^ 4 / GM) * (2 * (2 * PI) * G * 1025) / ge)%R.
Definition opt_coeffs (h : mem R) (o : opt) (fr fi fac : R) (max_degree max_order : Z) : res (mem R * Z) :=
  let md := if max_degree <? 0 then odeg o else max_degree in
  let mo := if max_order <? 0 then oord o else max_order in
  if (md <? mo) || (odeg o <? md) || (oord o <? mo) then Ok (h, 1) else
  '(h1, kf) <- fold_res (order_zero o fr fi) (zrange (md + 1)) (h, repeat None 360) ;;
  h2 <- fold_res (other_orders o fr fi kf) (positions md mo) h1 ;;
  h3 <- scale o fac h2 ;; Ok (h3, 0).

(** lines 190-254 whole; Re and GM are those of the coefficients *)
Definition opt_stokes (h : mem R) (o : opt) (dt xp yp Re GM Omega G ge : R) (max_degree max_order : Z) : res (mem R * Z) :=
  opt_coeffs h o (freal dt xp yp) (fimag dt xp yp) (opt_factor Re GM Omega G ge) max_degree max_order.

(** ** coefficient file: parse_desai02_coeffs.cpp *)
Section File.
  (** std::from_chars to double *)
  Variable sdbl : list Z -> option R * list Z.
  (** the header without blanks *)
  Definition header_text : list Z := chars "nmAnm(Real)Bnm(Real)Anm(Imaginary)Bnm(Imaginary)".
  (** lines 8-24: true if the header is wrong; idx walks along the text *)
  Fixpoint cmp_nwsc (line rest : list Z) : bool :=
    match line with
    | [] => match rest with [] => false | _ => true end
    | c :: t =>
        if c =? 32 then cmp_nwsc t rest
        else match rest with [] => true | x :: r => if c =? x then cmp_nwsc t r else true end
    end.
  Record coefs := mkCf { cAr : mat; cAi : mat; cBr : mat; cBi : mat }.
  Definition prepare (h : mem R) (m : mat) (n : Z) : res (mem R * mat) := resize R h m n n.
  (** the loop variables l, m, data keep their value when a number cannot be read *)
  Record scanned := mkSc { sl : Z; sm : Z; sd : list (cell R); serr : Z }.
  Definition keep {A} (v : option A) (old : A) : A := match v with Some x => x | None => old end.
  Definition keep_cells (vs : list (option R)) (old : list (cell R)) : list (cell R) :=
    map (fun p => match fst p with Some x => Some x | None => snd p end) (combine vs old).
  (** lines 97-109 *)
  Definition scan_line (line : list Z) (s : scanned) : scanned :=
    let (vl, r) := scan_i32 (skip_blanks line) in
    let (vm, r) := scan_i32 (skip_blanks r) in
    let (vs, e) := AtlasModel.numbers sdbl 4 r in
    mkSc (keep vl (sl s)) (keep vm (sm s)) (keep_cells vs (sd s)) (IcgemModel.cnt vl + IcgemModel.cnt vm + e).
  (** lines 110-115 *)
  Definition store_line (md mo : Z) (m : coefs) (s : scanned) (h : mem R) : res (mem R) :=
    if (sl s <=? md) && (sm s <=? mo) then
      match sd s with
      | [a; b; c; d] =>
          h1 <- put h (cAr m) (sl s) (sm s) a ;; h2 <- put h1 (cBr m) (sl s) (sm s) b ;;
          h3 <- put h2 (cAi m) (sl s) (sm s) c ;; put h3 (cBi m) (sl s) (sm s) d
      | _ => UB
      end
    else Ok h.
  (** lines 96-136: a line of 256 characters or more sets failbit *)
  Fixpoint data_loop (md mo : Z) (m : coefs) (lines : list (list Z)) (s : scanned) (h : mem R) : res (mem R * Z) :=
    match lines with
    | [] => Ok (h, 0)
    | line :: rest =>
        if 255 <? Z.of_nat (length line) then Ok (h, 5) else
        let s' := scan_line line s in
        h' <- store_line md mo m s' h ;;
        if negb (serr s' =? 0) then Ok (h', 1) else data_loop md mo m rest s' h'
    end.
  (** lines 33-140; [lines]: the lines of the file, none containing NUL, or None if it cannot be opened. Result: memory, matrices, return code *)
  Definition parse_desai (h : mem R) (m : coefs) (md mo : Z) (lines : option (list (list Z))) : res (mem R * coefs * Z) :=
    match lines with
    | None => Ok (h, m, 1)
    | Some ls =>
        if (md <? mo) || (360 <? md) || (360 <? mo) then Ok (h, m, 1) else
        '(h1, a) <- prepare h (cAr m) (md + 1) ;; '(h2, b) <- prepare h1 (cAi m) (md + 1) ;;
        '(h3, c) <- prepare h2 (cBr m) (md + 1) ;; '(h4, d) <- prepare h3 (cBi m) (md + 1) ;;
        h5 <- fill_with R h4 a 0%R ;; h6 <- fill_with R h5 b 0%R ;; h7 <- fill_with R h6 c 0%R ;; h8 <- fill_with R h7 d 0%R ;;
        let m' := mkCf a b c d in
        match ls with
        | [] => Ok (h8, m', 1)
        | head :: rest =>
            if 255 <? Z.of_nat (length head)
            then Ok (h8, m', if cmp_nwsc (firstn 255 head) header_text then 1 else 5)
            else if cmp_nwsc head header_text then Ok (h8, m', 1)
            else ' (h9, e) <- data_loop md mo m' rest (mkSc 0 0 [None; None; None; None] 0) h8 ;; Ok (h9, m', e)
        end
    end.
End File.
