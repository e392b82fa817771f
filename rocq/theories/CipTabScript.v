(** Tables of script/tables52ab.py (tables 5.2a and 5.2b of the IERS Conventions): sine and cosine coefficient in units of 0.01
    microarcseconds and the fourteen multipliers; the running number of the first column is left out, the code does not use it. *)
From Coq Require Import ZArith List.
From Verif Require Import CipRow.
Import ListNotations.
Open Scope Z_scope.

(** tables52ab.py:12-1317 *)
Definition xj0 : list row := [
T (-684431844) 132867 0 0 0 0 1 0 0 0 0 0 0 0 0 0;
T (-52390804) (-54475) 0 0 2 (-2) 2 0 0 0 0 0 0 0 0 0;
T (-9055222) 11123 0 0 2 0 2 0 0 0 0 0 0 0 0 0;
T 8216876 (-2764) 0 0 0 0 2 0 0 0 0 0 0 0 0 0;
T 5870702 47005 0 1 0 0 0 0 0 0 0 0 0 0 0 0;
T 2828828 (-3469) 1 0 0 0 0 0 0 0 0 0 0 0 0 0;
T (-2055778) (-2084) 0 1 2 (-2) 2 0 0 0 0 0 0 0 0 0;
T (-1540685) 1512 0 0 2 0 1 0 0 0 0 0 0 0 0 0;
T (-1199174) 3246 1 0 2 0 2 0 0 0 0 0 0 0 0 0;
T (-858495) 442 0 1 (-2) 2 (-2) 0 0 0 0 0 0 0 0 0;
T (-624502) (-668) 1 0 0 (-2) 0 0 0 0 0 0 0 0 0 0;
T 509550 719 0 0 2 (-2) 1 0 0 0 0 0 0 0 0 0;
T (-491093) 76 1 0 (-2) 0 (-2) 0 0 0 0 0 0 0 0 0;
T 252107 (-597) 0 0 0 2 0 0 0 0 0 0 0 0 0 0;
T 251185 107 1 0 0 0 1 0 0 0 0 0 0 0 0 0;
T 237258 593 1 0 (-2) (-2) (-2) 0 0 0 0 0 0 0 0 0;
T 230758 (-752) 1 0 0 0 (-1) 0 0 0 0 0 0 0 0 0;
T (-205316) 513 1 0 2 0 1 0 0 0 0 0 0 0 0 0;
T 189827 (-72) 2 0 0 (-2) 0 0 0 0 0 0 0 0 0 0;
T (-182549) 123 2 0 (-2) 0 (-1) 0 0 0 0 0 0 0 0 0;
T (-153409) 629 0 0 2 2 2 0 0 0 0 0 0 0 0 0;
T (-129202) 0 0 2 (-2) 2 (-2) 0 0 0 0 0 0 0 0 0;
T (-123496) 521 2 0 2 0 2 0 0 0 0 0 0 0 0 0;
T 116322 (-294) 2 0 0 0 0 0 0 0 0 0 0 0 0 0;
T 113748 (-4) 1 0 2 (-2) 2 0 0 0 0 0 0 0 0 0;
T 102970 (-263) 0 0 2 0 0 0 0 0 0 0 0 0 0 0;
T (-86648) 52 0 0 2 (-2) 0 0 0 0 0 0 0 0 0 0;
T (-81313) 40 1 0 (-2) 0 (-1) 0 0 0 0 0 0 0 0 0;
T 66457 (-40) 0 2 0 0 0 0 0 0 0 0 0 0 0 0;
T (-62824) (-64) 0 2 2 (-2) 2 0 0 0 0 0 0 0 0 0;
T (-60352) 44 1 0 0 (-2) (-1) 0 0 0 0 0 0 0 0 0;
T (-55626) 316 0 1 0 0 1 0 0 0 0 0 0 0 0 0;
T (-51237) (-147) 1 0 0 (-2) 1 0 0 0 0 0 0 0 0 0;
T 50665 254 0 1 0 0 (-1) 0 0 0 0 0 0 0 0 0;
T 43851 (-56) 2 0 (-2) 0 0 0 0 0 0 0 0 0 0 0;
T 40591 99 1 0 (-2) (-2) (-1) 0 0 0 0 0 0 0 0 0;
T (-12267) 20378 0 0 1 (-1) 1 0 0 (-1) 0 (-2) 5 0 0 0;
T (-30578) 175 1 0 2 2 2 0 0 0 0 0 0 0 0 0;
T 30099 (-44) 0 1 2 0 2 0 0 0 0 0 0 0 0 0;
T (-29237) (-32) 1 1 0 (-2) 0 0 0 0 0 0 0 0 0 0;
T 28409 32 0 1 (-2) 0 (-2) 0 0 0 0 0 0 0 0 0;
T (-26402) 99 0 0 2 2 1 0 0 0 0 0 0 0 0 0;
T 26154 (-95) 1 0 0 2 0 0 0 0 0 0 0 0 0 0;
T 25630 (-28) 2 0 2 (-2) 2 0 0 0 0 0 0 0 0 0;
T (-25054) 8 0 0 0 2 1 0 0 0 0 0 0 0 0 0;
T 23072 8 1 0 2 (-2) 1 0 0 0 0 0 0 0 0 0;
T 22978 (-60) 2 0 0 (-2) (-1) 0 0 0 0 0 0 0 0 0;
T (-21282) 84 2 0 2 0 1 0 0 0 0 0 0 0 0 0;
T 19664 (-84) 0 0 0 2 (-1) 0 0 0 0 0 0 0 0 0;
T 18895 (-12) 0 1 (-2) 2 (-1) 0 0 0 0 0 0 0 0 0;
T 18795 (-24) 1 (-1) 0 0 0 0 0 0 0 0 0 0 0 0;
T (-16015) (-1404) 1 0 0 (-1) 0 0 0 0 0 0 0 0 0 0;
T (-17295) (-40) 0 1 0 (-2) 0 0 0 0 0 0 0 0 0 0;
T (-16826) 20 0 0 0 1 0 0 0 0 0 0 0 0 0 0;
T 16179 24 2 0 0 (-2) 1 0 0 0 0 0 0 0 0 0;
T 16134 20 1 0 (-2) 0 0 0 0 0 0 0 0 0 0 0;
T 5744 9582 0 0 0 0 0 0 0 0 0 2 (-5) 0 0 (-1);
T 14216 20 0 1 2 (-2) 1 0 0 0 0 0 0 0 0 0;
T (-13481) 20 1 1 0 0 0 0 0 0 0 0 0 0 0 0;
T 13281 (-52) 1 0 2 0 0 0 0 0 0 0 0 0 0 0;
T (-13031) 4 1 (-1) 0 (-1) 0 0 0 0 0 0 0 0 0 0;
T 12198 (-8) 2 0 (-2) 0 (-2) 0 0 0 0 0 0 0 0 0;
T (-11540) 60 3 0 2 0 2 0 0 0 0 0 0 0 0 0;
T (-11449) 32 1 (-1) 2 0 2 0 0 0 0 0 0 0 0 0;
T 11214 28 1 1 (-2) (-2) (-2) 0 0 0 0 0 0 0 0 0;
T 10529 44 0 1 (-2) (-2) (-2) 0 0 0 0 0 0 0 0 0;
T 9869 (-28) 1 1 2 0 2 0 0 0 0 0 0 0 0 0;
T 9131 (-40) 2 0 0 0 (-1) 0 0 0 0 0 0 0 0 0;
T 8674 (-8) 2 0 0 0 1 0 0 0 0 0 0 0 0 0;
T (-1838) 6380 0 0 0 0 0 0 0 4 (-8) 3 0 0 0 0;
T 8214 0 0 0 0 0 0 0 3 (-5) 0 0 0 0 0 (-2);
T 7903 (-24) 1 0 (-2) 2 (-1) 0 0 0 0 0 0 0 0 0;
T 0 (-7908) 0 1 (-1) 1 (-1) 0 0 0 0 0 0 0 0 0;
T (-7856) 0 1 0 0 0 2 0 0 0 0 0 0 0 0 0;
T 4773 2379 0 0 1 (-1) 1 0 (-8) 12 0 0 0 0 0 0;
T 6603 (-20) 0 0 2 1 2 0 0 0 0 0 0 0 0 0;
T 6265 (-24) 3 0 0 0 0 0 0 0 0 0 0 0 0 0;
T 6050 36 1 0 (-2) (-4) (-2) 0 0 0 0 0 0 0 0 0;
T 5907 0 0 0 0 0 0 0 1 (-1) 0 0 0 0 0 0;
T 5728 0 0 0 0 0 0 0 0 8 (-16) 4 5 0 0 0;
T (-5566) 16 1 0 0 0 (-2) 0 0 0 0 0 0 0 0 0;
T (-5481) (-8) 2 0 (-2) (-2) (-2) 0 0 0 0 0 0 0 0 0;
T (-5322) (-20) 1 0 0 (-4) 0 0 0 0 0 0 0 0 0 0;
T (-5295) 32 1 0 2 2 1 0 0 0 0 0 0 0 0 0;
T (-5227) 0 1 (-1) 0 (-1) (-1) 0 0 0 0 0 0 0 0 0;
T 5132 0 1 1 2 (-2) 2 0 0 0 0 0 0 0 0 0;
T (-5100) (-12) 2 0 0 (-4) 0 0 0 0 0 0 0 0 0 0;
T 5102 0 0 2 (-2) 2 (-1) 0 0 0 0 0 0 0 0 0;
T (-4865) (-115) 0 0 0 0 0 0 0 1 0 (-1) 0 0 0 0;
T 4829 20 2 0 (-2) (-4) (-2) 0 0 0 0 0 0 0 0 0;
T (-4638) 0 0 0 0 0 0 0 0 0 0 2 0 0 0 2;
T (-4559) (-12) 1 0 (-4) 0 (-2) 0 0 0 0 0 0 0 0 0;
T (-4376) 36 2 0 2 2 2 0 0 0 0 0 0 0 0 0;
T (-4058) (-100) 1 0 0 (-1) (-1) 0 0 0 0 0 0 0 0 0;
T 0 (-4153) 1 0 (-1) 0 (-1) 0 0 0 0 0 0 0 0 0;
T 4054 (-4) 2 0 2 (-2) 1 0 0 0 0 0 0 0 0 0;
T 4033 (-4) 2 1 0 (-2) 0 0 0 0 0 0 0 0 0 0;
T (-3857) 8 1 0 0 2 1 0 0 0 0 0 0 0 0 0;
T 3775 4 1 (-1) 0 (-2) 0 0 0 0 0 0 0 0 0 0;
T 3715 (-12) 3 0 2 (-2) 2 0 0 0 0 0 0 0 0 0;
T 3668 (-4) 0 0 4 (-2) 2 0 0 0 0 0 0 0 0 0;
T (-1830) (-1730) 0 0 0 0 1 0 0 (-1) 2 0 0 0 0 0;
T (-1786) 1710 0 0 0 0 0 0 0 1 (-2) 0 0 0 0 0;
T (-3481) 4 0 1 (-2) 2 0 0 0 0 0 0 0 0 0 0;
T (-3322) 8 0 0 2 (-2) (-1) 0 0 0 0 0 0 0 0 0;
T 3243 (-4) 0 1 2 0 1 0 0 0 0 0 0 0 0 0;
T (-3047) 4 1 0 2 (-2) 0 0 0 0 0 0 0 0 0 0;
T (-2953) 4 1 1 0 (-2) (-1) 0 0 0 0 0 0 0 0 0;
T 2850 (-8) 2 0 (-2) 0 1 0 0 0 0 0 0 0 0 0;
T 2835 (-16) 0 1 0 0 2 0 0 0 0 0 0 0 0 0;
T (-2800) 0 0 0 2 (-1) 2 0 0 0 0 0 0 0 0 0;
T (-2761) 20 0 0 2 4 2 0 0 0 0 0 0 0 0 0;
T (-2677) 8 0 1 0 2 0 0 0 0 0 0 0 0 0 0;
T 2654 (-12) 0 0 2 0 (-1) 0 0 0 0 0 0 0 0 0;
T 2654 4 0 1 (-2) 0 (-1) 0 0 0 0 0 0 0 0 0;
T (-2617) 0 0 1 2 (-2) 0 0 0 0 0 0 0 0 0 0;
T (-2542) (-8) 1 0 (-2) (-2) 0 0 0 0 0 0 0 0 0 0;
T (-1691) 843 0 0 0 0 0 0 8 (-13) 0 0 0 0 0 (-1);
T 32 2442 0 0 0 0 0 0 2 (-3) 0 0 0 0 0 0;
T (-1953) 509 0 0 0 0 0 0 0 0 0 2 (-5) 0 0 0;
T (-2379) 0 0 0 0 0 0 0 2 (-2) 0 0 0 0 0 0;
T 2366 0 1 (-1) 0 (-1) (-2) 0 0 0 0 0 0 0 0 0;
T (-2347) 16 1 (-1) 2 2 2 0 0 0 0 0 0 0 0 0;
T 2339 (-12) 2 0 0 2 0 0 0 0 0 0 0 0 0 0;
T (-2349) 0 0 1 0 0 (-2) 0 0 0 0 0 0 0 0 0;
T (-2328) (-8) 1 1 0 (-2) 1 0 0 0 0 0 0 0 0 0;
T (-2299) 4 1 0 (-2) 2 0 0 0 0 0 0 0 0 0 0;
T (-2267) (-8) 1 (-1) (-2) (-2) (-2) 0 0 0 0 0 0 0 0 0;
T 935 1329 0 0 0 0 0 0 8 (-13) 0 0 0 0 0 0;
T 2247 (-4) 0 1 0 1 0 0 0 0 0 0 0 0 0 0;
T 489 (-1655) 0 0 0 0 0 0 0 2 (-8) 3 0 0 0 (-2);
T 489 (-1651) 0 0 0 0 0 0 0 6 (-8) 3 0 0 0 2;
T 2128 (-8) 0 1 2 2 2 0 0 0 0 0 0 0 0 0;
T 2057 64 0 0 0 0 0 0 0 3 0 (-1) 0 0 0 2;
T 2101 0 1 (-1) 0 0 1 0 0 0 0 0 0 0 0 0;
T 123 (-1913) 0 0 1 (-1) 1 0 0 (-1) 0 2 (-5) 0 0 0;
T (-1997) 12 3 0 2 0 1 0 0 0 0 0 0 0 0 0;
T 1965 (-8) 0 0 0 4 0 0 0 0 0 0 0 0 0 0;
T 1958 (-12) 1 0 0 2 (-1) 0 0 0 0 0 0 0 0 0;
T 1961 (-8) 1 (-1) 0 2 0 0 0 0 0 0 0 0 0 0;
T (-1941) 8 2 (-1) 2 0 2 0 0 0 0 0 0 0 0 0;
T (-1949) 0 0 0 0 0 0 0 4 (-6) 0 0 0 0 0 (-2);
T (-1864) 0 0 0 0 2 2 0 0 0 0 0 0 0 0 0;
T 1858 4 1 1 (-2) (-2) (-1) 0 0 0 0 0 0 0 0 0;
T (-1842) 0 1 (-1) (-2) 0 (-2) 0 0 0 0 0 0 0 0 0;
T 1822 0 0 0 0 0 0 0 2 (-4) 0 0 0 0 0 (-2);
T (-72) (-1734) 0 0 2 (-2) 1 0 (-5) 6 0 0 0 0 0 0;
T (-1802) (-4) 1 0 2 (-4) 1 0 0 0 0 0 0 0 0 0;
T 1774 8 0 1 (-2) (-2) (-1) 0 0 0 0 0 0 0 0 0;
T 1746 0 2 0 0 (-2) 0 0 0 (-2) 0 2 0 0 0 0;
T (-1742) 0 0 3 2 (-2) 2 0 0 0 0 0 0 0 0 0;
T (-660) 1070 0 0 0 0 0 0 0 1 0 (-2) 0 0 0 0;
T 1643 52 0 0 0 0 0 0 0 2 0 (-2) 0 0 0 0;
T (-1675) 4 1 (-1) 2 0 1 0 0 0 0 0 0 0 0 0;
T 1655 (-8) 0 0 2 2 0 0 0 0 0 0 0 0 0 0;
T 1639 (-8) 2 1 2 0 2 0 0 0 0 0 0 0 0 0;
T 1388 (-247) 2 0 0 (-2) 0 0 0 (-2) 0 3 0 0 0 0;
T 1569 0 1 0 0 (-2) (-2) 0 0 0 0 0 0 0 0 0;
T (-1552) 0 0 0 0 1 1 0 0 0 0 0 0 0 0 0;
T 334 1186 0 0 0 0 1 0 0 (-4) 8 (-3) 0 0 0 0;
T 1472 (-32) 0 0 0 0 0 0 2 0 0 0 0 0 0 2;
T 1492 (-4) 2 (-1) 0 0 0 0 0 0 0 0 0 0 0 0;
T (-326) 1162 0 0 0 0 1 0 0 4 (-8) 3 0 0 0 0;
T (-1464) 0 0 0 0 0 0 0 0 2 (-2) 0 0 0 0 0;
T 0 1447 1 0 (-1) 0 (-2) 0 0 0 0 0 0 0 0 0;
T (-1437) 0 1 1 0 0 1 0 0 0 0 0 0 0 0 0;
T 1432 (-4) 1 1 2 0 1 0 0 0 0 0 0 0 0 0;
T (-1410) 4 1 0 (-2) 2 (-2) 0 0 0 0 0 0 0 0 0;
T 1086 318 0 0 1 (-1) 1 0 0 0 (-2) 0 0 0 0 0;
T (-1058) (-310) 0 0 1 (-1) 0 0 0 0 (-2) 0 0 0 0 0;
T (-362) 986 0 0 0 0 0 0 0 0 0 1 0 0 0 0;
T (-1348) 0 0 0 0 0 0 0 1 1 0 0 0 0 0 2;
T 1341 (-4) 1 0 2 1 2 0 0 0 0 0 0 0 0 0;
T 1332 (-8) 2 0 2 0 0 0 0 0 0 0 0 0 0 0;
T (-1333) (-4) 0 1 0 (-2) 1 0 0 0 0 0 0 0 0 0;
T (-1329) 0 1 0 2 (-1) 2 0 0 0 0 0 0 0 0 0;
T (-20) 1305 0 0 0 0 0 0 3 (-4) 0 0 0 0 0 0;
T 0 1313 1 0 (-1) 0 0 0 0 0 0 0 0 0 0 0;
T (-899) 402 1 0 0 0 0 0 (-18) 16 0 0 0 0 0 0;
T (-1293) 4 1 0 0 1 0 0 0 0 0 0 0 0 0 0;
T 203 1082 0 0 0 0 0 0 0 0 0 2 0 0 0 1;
T (-1278) 4 0 0 0 1 (-1) 0 0 0 0 0 0 0 0 0;
T 1224 4 1 0 0 (-2) 2 0 0 0 0 0 0 0 0 0;
T 871 354 1 0 0 0 0 0 (-10) 3 0 0 0 0 0 0;
T 1198 (-4) 1 (-1) 0 0 (-1) 0 0 0 0 0 0 0 0 0;
T (-1138) 4 2 1 0 0 0 0 0 0 0 0 0 0 0 0;
T (-1130) 0 2 0 0 (-2) (-1) 0 0 (-2) 0 2 0 0 0 0;
T 1114 (-4) 0 0 2 1 1 0 0 0 0 0 0 0 0 0;
T 1098 0 0 3 0 0 0 0 0 0 0 0 0 0 0 0;
T (-1098) 0 1 2 0 (-2) 0 0 0 0 0 0 0 0 0 0;
T 44 (-1038) 0 0 0 0 0 0 5 (-8) 0 0 0 0 0 (-2);
T 1046 8 1 0 (-2) (-4) (-1) 0 0 0 0 0 0 0 0 0;
T (-1042) 0 0 0 0 0 0 0 0 1 0 1 0 0 0 2;
T (-1030) 8 4 0 2 0 2 0 0 0 0 0 0 0 0 0;
T 692 334 0 0 1 (-1) 1 0 0 (-1) 0 0 (-1) 0 0 0;
T 1007 4 1 0 (-2) 0 1 0 0 0 0 0 0 0 0 0;
T 1002 0 2 1 2 (-2) 2 0 0 0 0 0 0 0 0 0;
T (-975) 4 0 1 2 1 2 0 0 0 0 0 0 0 0 0;
T 975 0 1 1 2 (-2) 1 0 0 0 0 0 0 0 0 0;
T 967 (-4) 1 0 4 (-2) 2 0 0 0 0 0 0 0 0 0;
T (-199) 772 0 0 1 (-1) 1 0 0 (-1) 0 (-1) 0 0 0 0;
T 40 927 0 0 2 (-2) 0 0 (-5) 6 0 0 0 0 0 0;
T (-342) 609 0 0 0 0 0 0 0 2 (-4) 0 0 0 0 0;
T 56 (-867) 0 0 0 0 0 0 0 0 0 2 (-5) 0 0 1;
T (-919) 0 2 0 (-2) (-2) (-1) 0 0 0 0 0 0 0 0 0;
T 911 0 1 0 (-2) 1 (-1) 0 0 0 0 0 0 0 0 0;
T 907 0 2 (-2) 0 (-2) 0 0 0 0 0 0 0 0 0 0;
T 163 696 0 0 0 0 0 0 8 (-13) 0 0 0 0 0 (-2);
T (-847) 0 0 2 0 (-2) 0 0 0 0 0 0 0 0 0 0;
T (-828) 4 1 1 0 0 (-1) 0 0 0 0 0 0 0 0 0;
T 827 4 2 0 (-2) (-4) (-1) 0 0 0 0 0 0 0 0 0;
T (-804) 0 0 0 0 0 0 0 5 (-7) 0 0 0 0 0 (-2);
T 791 0 0 1 0 2 1 0 0 0 0 0 0 0 0 0;
T (-784) (-4) 1 0 (-4) 0 (-1) 0 0 0 0 0 0 0 0 0;
T (-764) 8 2 0 2 2 1 0 0 0 0 0 0 0 0 0;
T 521 (-251) 1 0 2 0 2 0 0 1 0 0 0 0 0 0;
T (-577) 187 0 0 0 0 0 0 3 (-5) 0 0 0 0 0 0;
T 501 (-251) 1 0 (-2) 0 (-2) 0 0 4 (-8) 3 0 0 0 0;
T (-748) 0 0 0 2 (-3) 2 0 0 0 0 0 0 0 0 0;
T (-732) (-12) 0 0 0 0 0 0 0 4 0 (-2) 0 0 0 2;
T 740 (-4) 0 0 4 0 2 0 0 0 0 0 0 0 0 0;
T 744 0 1 0 0 (-4) (-1) 0 0 0 0 0 0 0 0 0;
T 632 (-111) 1 0 0 (-1) 1 0 0 0 0 0 0 0 0 0;
T (-613) (-119) 0 0 0 0 0 0 0 2 0 (-1) 0 0 0 2;
T 20 (-688) 0 0 0 0 0 0 2 (-1) 0 0 0 0 0 2;
T 692 4 1 1 (-2) (-4) (-2) 0 0 0 0 0 0 0 0 0;
T 648 (-48) 0 0 0 0 0 0 0 2 0 1 0 0 0 2;
T (-694) 0 2 0 0 (-2) (-2) 0 0 0 0 0 0 0 0 0;
T 247 (-446) 0 0 0 0 0 0 8 (-11) 0 0 0 0 0 (-2);
T (-223) (-465) 0 0 0 0 0 0 0 8 (-16) 4 5 0 0 (-2);
T (-107) (-569) 0 0 1 (-1) 1 0 0 (-1) 0 2 0 0 0 0;
T 497 (-171) 0 0 0 0 0 0 0 8 (-16) 4 5 0 0 2;
T 557 107 0 0 1 (-1) 1 0 (-5) 7 0 0 0 0 0 0;
T (-648) 8 1 0 2 4 2 0 0 0 0 0 0 0 0 0;
T 203 453 0 0 0 0 0 0 0 0 0 0 2 0 0 1;
T 410 (-239) 1 0 0 (-2) 0 0 19 (-21) 3 0 0 0 0 0;
T 0 (-644) 0 0 1 0 1 0 0 0 0 0 0 0 0 0;
T (-640) 0 3 0 0 (-4) 0 0 0 0 0 0 0 0 0 0;
T 632 0 1 1 (-2) 0 (-2) 0 0 0 0 0 0 0 0 0;
T 267 (-362) 0 0 0 0 0 0 0 3 0 (-2) 0 0 0 2;
T (-191) (-438) 0 0 1 (-1) 1 0 0 (-1) 0 0 2 0 0 0;
T (-243) (-382) 0 0 0 0 0 0 8 (-15) 0 0 0 0 0 (-2);
T 620 0 0 1 0 (-2) (-1) 0 0 0 0 0 0 0 0 0;
T (-338) (-278) 0 0 0 0 0 0 0 1 2 0 0 0 0 2;
T (-612) 4 0 0 0 4 1 0 0 0 0 0 0 0 0 0;
T (-609) (-4) 0 0 2 (-4) 1 0 0 0 0 0 0 0 0 0;
T (-601) (-4) 1 1 0 (-4) 0 0 0 0 0 0 0 0 0 0;
T 318 (-282) 0 0 0 0 0 0 0 3 (-2) 0 0 0 0 2;
T (-505) 84 0 0 0 0 0 0 0 0 0 3 0 0 0 2;
T 585 0 3 0 2 (-2) 1 0 0 0 0 0 0 0 0 0;
T 569 (-12) 0 0 0 0 0 0 0 4 (-2) 0 0 0 0 2;
T 573 (-4) 1 1 2 2 2 0 0 0 0 0 0 0 0 0;
T 561 0 0 0 4 (-2) 1 0 0 0 0 0 0 0 0 0;
T 549 0 2 0 0 (-2) 0 0 (-3) 3 0 0 0 0 0 0;
T (-533) 4 3 0 2 2 2 0 0 0 0 0 0 0 0 0;
T (-529) 0 0 0 0 0 0 0 0 0 0 0 2 0 0 2;
T 525 0 2 1 0 (-2) (-1) 0 0 0 0 0 0 0 0 0;
T 99 422 0 0 0 0 0 0 4 (-6) 0 0 0 0 0 (-1);
T (-99) 422 0 0 0 0 0 0 1 (-1) 0 0 0 0 0 (-1);
T 0 521 1 0 0 (-1) 0 0 (-3) 4 0 0 0 0 0 0;
T 513 4 0 2 (-2) (-2) (-2) 0 0 0 0 0 0 0 0 0;
T (-490) 0 2 0 0 (-4) (-1) 0 0 0 0 0 0 0 0 0;
T (-310) 179 0 0 0 0 0 0 0 3 (-4) 0 0 0 0 0;
T (-481) 4 0 0 2 4 1 0 0 0 0 0 0 0 0 0;
T (-475) 0 0 0 0 2 (-2) 0 0 0 0 0 0 0 0 0;
T 470 (-4) 3 0 0 0 (-1) 0 0 0 0 0 0 0 0 0;
T (-469) 0 0 0 0 0 0 0 0 1 0 (-3) 0 0 0 (-2);
T (-465) 0 0 0 0 0 0 0 6 (-8) 0 0 0 0 0 (-2);
T 465 0 0 0 2 (-2) 1 0 (-3) 3 0 0 0 0 0 0;
T (-457) 0 2 1 0 (-4) 0 0 0 0 0 0 0 0 0 0;
T 449 (-4) 4 0 2 (-2) 2 0 0 0 0 0 0 0 0 0;
T (-453) 0 0 0 1 (-1) 1 0 0 3 (-8) 3 0 0 0 0;
T 0 (-453) 0 0 0 0 0 0 3 (-2) 0 0 0 0 0 2;
T 0 (-453) 0 0 0 0 0 0 2 (-5) 0 0 0 0 0 (-2);
T (-453) 0 2 0 0 2 1 0 0 0 0 0 0 0 0 0;
T 450 0 1 (-1) 0 (-2) (-1) 0 0 0 0 0 0 0 0 0;
T (-449) 0 0 0 0 0 0 0 1 (-3) 0 0 0 0 0 (-2);
T 183 263 0 0 0 0 1 0 8 (-13) 0 0 0 0 0 0;
T 438 0 2 1 (-2) (-4) (-2) 0 0 0 0 0 0 0 0 0;
T 88 (-346) 0 0 0 0 0 0 1 (-2) 0 0 0 0 0 0;
T (-270) 155 0 0 0 0 0 0 0 2 (-3) 0 0 0 0 0;
T (-422) 0 0 0 2 (-1) 1 0 0 0 0 0 0 0 0 0;
T (-410) (-12) 1 1 0 2 0 0 0 0 0 0 0 0 0 0;
T 354 (-64) 2 0 0 (-2) 1 0 0 (-2) 0 3 0 0 0 0;
T (-350) 68 0 0 0 0 0 0 5 (-8) 0 0 0 0 0 (-1);
T 418 0 1 (-1) (-2) 2 (-1) 0 0 0 0 0 0 0 0 0;
T 414 0 1 2 (-2) (-2) (-2) 0 0 0 0 0 0 0 0 0;
T 410 0 1 0 0 (-3) 0 0 0 0 0 0 0 0 0 0;
T (-406) 0 2 0 0 (-4) 1 0 0 0 0 0 0 0 0 0;
T 270 (-135) 1 0 0 0 (-1) 0 (-18) 16 0 0 0 0 0 0;
T (-404) 0 2 0 0 (-2) 2 0 0 0 0 0 0 0 0 0;
T (-398) (-4) 1 0 0 (-4) 1 0 0 0 0 0 0 0 0 0;
T (-398) 4 1 (-1) 2 2 1 0 0 0 0 0 0 0 0 0;
T 402 0 2 0 2 (-4) 1 0 0 0 0 0 0 0 0 0;
T 394 0 0 0 1 (-1) 1 0 0 (-5) 8 (-3) 0 0 0 0;
T 84 (-310) 0 0 1 (-1) 0 0 0 (-1) 0 (-1) 0 0 0 0;
T 330 60 0 0 0 0 0 0 0 2 0 (-3) 0 0 0 0;
T (-159) 227 0 0 0 0 1 0 (-8) 13 0 0 0 0 0 0;
T (-366) (-20) 2 (-1) 0 (-2) 0 0 0 0 0 0 0 0 0 0;
T (-310) (-72) 2 0 0 (-2) 0 0 (-6) 8 0 0 0 0 0 0;
T (-382) 0 1 (-1) (-2) 0 (-1) 0 0 0 0 0 0 0 0 0;
T (-362) (-16) 2 1 (-2) 0 (-1) 0 0 0 0 0 0 0 0 0;
T (-374) 0 0 1 (-2) 1 (-2) 0 0 0 0 0 0 0 0 0;
T 374 0 4 0 0 0 0 0 0 0 0 0 0 0 0 0;
T (-374) 0 0 2 (-2) 2 0 0 0 0 0 0 0 0 0 0;
T (-371) 0 0 2 0 0 1 0 0 0 0 0 0 0 0 0;
T 302 68 0 0 0 0 1 0 0 0 0 (-2) 5 0 0 0;
T 370 0 1 0 (-4) 2 (-2) 0 0 0 0 0 0 0 0 0;
T 330 40 0 2 (-2) 0 (-2) 0 0 0 0 0 0 0 0 0;
T (-366) 4 2 (-1) 2 2 2 0 0 0 0 0 0 0 0 0;
T 366 4 0 1 (-2) (-4) (-2) 0 0 0 0 0 0 0 0 0;
T (-362) 0 1 0 (-2) (-3) (-2) 0 0 0 0 0 0 0 0 0;
T (-361) 0 2 0 0 0 2 0 0 0 0 0 0 0 0 0;
T (-290) 68 0 0 0 0 1 0 0 0 0 2 (-5) 0 0 0;
T 80 (-278) 0 0 0 0 1 0 0 0 0 1 0 0 0 0;
T 354 0 0 0 0 0 0 0 3 (-3) 0 0 0 0 0 0;
T (-354) 0 0 0 0 0 0 0 0 2 0 0 0 0 0 2;
T (-350) 0 2 0 2 (-2) 0 0 0 0 0 0 0 0 0 0;
T 345 0 0 2 2 (-2) 1 0 0 0 0 0 0 0 0 0;
T 0 (-342) 0 0 0 0 0 0 0 6 (-16) 4 5 0 0 (-2);
T 338 0 1 (-2) 0 0 0 0 0 0 0 0 0 0 0 0;
T 227 (-111) 1 0 0 0 1 0 (-18) 16 0 0 0 0 0 0;
T (-334) 0 1 (-1) (-2) (-2) (-1) 0 0 0 0 0 0 0 0 0;
T 334 0 0 1 2 2 1 0 0 0 0 0 0 0 0 0;
T (-330) 1 0 0 2 0 3 0 0 0 0 0 0 0 0 0;
T 331 0 1 0 2 0 (-1) 0 0 0 0 0 0 0 0 0;
T 330 0 3 0 0 0 1 0 0 0 0 0 0 0 0 0;
T (-330) 0 1 0 (-2) (-1) (-2) 0 0 0 0 0 0 0 0 0;
T (-139) (-191) 0 0 0 0 0 0 0 1 0 2 0 0 0 2;
T 330 0 0 0 0 0 0 0 4 (-4) 0 0 0 0 0 0;
T 326 0 2 1 0 (-2) 1 0 0 0 0 0 0 0 0 0;
T 326 0 1 0 0 4 0 0 0 0 0 0 0 0 0 0;
T 322 (-4) 1 0 2 2 0 0 0 0 0 0 0 0 0 0;
T (-326) 0 2 (-1) (-2) 0 (-1) 0 0 0 0 0 0 0 0 0;
T 251 (-64) 0 0 0 0 0 0 3 (-7) 0 0 0 0 0 (-2);
T 314 0 2 0 (-4) 0 (-2) 0 0 0 0 0 0 0 0 0;
T (-263) (-48) 0 0 1 (-1) 1 0 0 (-1) 0 0 1 0 0 0;
T 310 0 3 0 (-2) 0 (-1) 0 0 0 0 0 0 0 0 0;
T (-306) 0 2 (-1) 2 0 1 0 0 0 0 0 0 0 0 0;
T 294 (-12) 1 (-2) 0 (-2) 0 0 0 0 0 0 0 0 0 0;
T 306 0 2 0 (-2) 2 (-1) 0 0 0 0 0 0 0 0 0;
T 0 298 0 0 1 0 0 0 0 0 0 0 0 0 0 0;
T 298 0 1 0 2 (-4) 0 0 0 0 0 0 0 0 0 0;
T (-298) 0 0 0 0 0 0 0 0 1 0 0 (-1) 0 0 0;
T 207 91 0 0 0 0 0 0 0 0 0 1 0 0 0 2;
T 294 0 0 2 2 0 2 0 0 0 0 0 0 0 0 0;
T (-294) 0 0 0 0 0 0 0 7 (-9) 0 0 0 0 0 (-2);
T (-294) 0 0 0 0 0 0 0 0 0 2 0 0 0 0 2;
T (-290) 0 1 (-1) 2 (-2) 2 0 0 0 0 0 0 0 0 0;
T (-56) (-235) 0 0 0 0 0 0 2 (-4) 0 0 0 0 0 (-1);
T (-147) 139 0 0 0 0 1 0 0 1 (-2) 0 0 0 0 0;
T 280 0 1 0 2 (-4) 2 0 0 0 0 0 0 0 0 0;
T (-274) 0 2 0 2 (-1) 2 0 0 0 0 0 0 0 0 0;
T 215 (-60) 0 0 0 0 0 0 3 (-3) 0 0 0 0 0 2;
T (-12) 263 0 0 0 0 0 0 4 (-7) 0 0 0 0 0 (-2);
T (-270) 0 1 1 (-2) 1 (-1) 0 0 0 0 0 0 0 0 0;
T 179 (-88) 0 0 0 0 0 0 0 8 (-15) 0 0 0 0 0;
T (-48) 219 0 0 0 0 0 0 2 (-2) 0 0 0 0 0 (-1);
T 44 223 0 0 0 0 0 0 0 0 0 0 1 0 0 0;
T 52 207 0 0 0 0 0 0 0 0 0 1 0 0 0 (-1);
T (-259) 0 0 1 0 (-4) 0 0 0 0 0 0 0 0 0 0;
T 255 0 2 1 2 0 1 0 0 0 0 0 0 0 0 0;
T (-111) 143 0 0 0 0 0 0 0 1 0 (-3) 0 0 0 0;
T (-251) 0 3 (-1) 2 0 2 0 0 0 0 0 0 0 0 0;
T (-251) 0 2 1 (-2) (-2) (-2) 0 0 0 0 0 0 0 0 0;
T 251 0 1 1 (-2) 0 (-1) 0 0 0 0 0 0 0 0 0;
T 0 (-250) 1 0 (-1) 0 (-3) 0 0 0 0 0 0 0 0 0;
T 247 0 1 (-1) 0 (-2) 1 0 0 0 0 0 0 0 0 0;
T 211 (-36) 2 0 0 (-2) (-1) 0 0 (-2) 0 3 0 0 0 0;
T 167 80 0 0 1 (-1) 0 0 0 (-1) 0 0 (-1) 0 0 0;
T 246 0 0 2 0 0 (-1) 0 0 0 0 0 0 0 0 0;
T (-243) 0 1 0 (-2) 1 0 0 0 0 0 0 0 0 0 0;
T (-239) 0 1 0 2 (-3) 2 0 0 0 0 0 0 0 0 0;
T 24 215 0 0 0 0 0 0 0 0 0 1 0 0 0 1;
T (-44) (-195) 0 0 0 0 0 0 3 (-5) 0 0 0 0 0 (-1);
T (-183) 56 0 0 0 0 0 0 4 (-6) 0 0 0 0 0 0;
T 239 0 2 0 (-2) (-2) 0 0 0 0 0 0 0 0 0 0;
T 235 0 0 0 0 0 0 0 5 (-5) 0 0 0 0 0 0;
T 227 0 1 0 2 1 1 0 0 0 0 0 0 0 0 0;
T (-222) 0 2 0 0 0 (-2) 0 0 0 0 0 0 0 0 0;
T (-103) (-115) 1 0 0 (-1) 1 0 0 (-1) 0 2 0 0 0 0;
T 187 32 0 0 0 0 0 0 0 0 0 0 1 0 0 1;
T (-32) (-187) 0 0 1 (-1) 1 0 0 (-2) 2 0 0 0 0 0;
T 215 0 2 0 0 (-2) 1 0 0 (-2) 0 2 0 0 0 0;
T (-80) 135 0 0 0 0 0 0 0 3 (-5) 0 0 0 0 0;
T 211 0 3 1 2 0 2 0 0 0 0 0 0 0 0 0;
T (-211) 0 1 1 2 1 2 0 0 0 0 0 0 0 0 0;
T (-56) (-155) 0 0 0 0 0 0 5 (-8) 0 0 0 0 0 0;
T 211 0 1 0 0 (-1) 0 0 0 (-1) 0 1 0 0 0 0;
T (-84) (-127) 0 0 0 0 0 0 0 0 4 0 0 0 0 2;
T (-199) 12 0 0 0 0 0 0 8 (-10) 0 0 0 0 0 (-2);
T (-24) 187 0 0 0 0 0 0 0 1 (-2) 0 0 0 0 (-1);
T (-24) (-187) 0 0 1 (-1) 1 0 0 (-1) 0 1 0 0 0 0;
T (-203) 0 1 (-2) 2 0 2 0 0 0 0 0 0 0 0 0;
T 203 0 2 (-1) 2 (-2) 2 0 0 0 0 0 0 0 0 0;
T 203 0 2 0 0 (-3) 0 0 0 0 0 0 0 0 0 0;
T 203 0 0 0 0 0 0 0 0 2 (-4) 0 0 0 0 (-2);
T (-40) 159 0 0 1 (-1) 1 0 (-3) 4 0 0 0 0 0 0;
T 199 0 0 0 2 (-2) 1 0 0 (-2) 0 2 0 0 0 0;
T 195 0 0 1 0 1 1 0 0 0 0 0 0 0 0 0;
T 195 0 3 0 0 2 0 0 0 0 0 0 0 0 0 0;
T 191 0 0 1 0 1 (-1) 0 0 0 0 0 0 0 0 0;
T 119 (-72) 0 0 0 0 0 0 0 5 (-4) 0 0 0 0 2;
T 187 0 2 0 2 1 2 0 0 0 0 0 0 0 0 0;
T 187 0 1 1 0 1 0 0 0 0 0 0 0 0 0 0;
T (-127) 60 0 0 0 0 0 0 0 0 0 0 1 0 0 (-1);
T 72 (-115) 0 0 0 0 0 0 0 4 (-4) 0 0 0 0 2;
T (-99) 88 0 0 0 0 0 0 0 0 0 2 0 0 0 0;
T 187 0 2 (-1) 0 2 0 0 0 0 0 0 0 0 0 0;
T (-187) 0 1 1 (-2) 2 (-1) 0 0 0 0 0 0 0 0 0;
T (-183) 0 2 0 (-4) (-2) (-2) 0 0 0 0 0 0 0 0 0;
T (-179) 0 0 1 0 2 (-1) 0 0 0 0 0 0 0 0 0;
T (-179) 0 4 0 2 0 1 0 0 0 0 0 0 0 0 0;
T 179 0 1 2 2 (-2) 2 0 0 0 0 0 0 0 0 0;
T 0 (-179) 0 0 0 0 0 0 6 (-9) 0 0 0 0 0 (-2);
T (-179) 0 1 1 2 (-4) 1 0 0 0 0 0 0 0 0 0;
T (-175) 0 0 0 4 (-4) 2 0 0 0 0 0 0 0 0 0;
T (-175) 0 3 0 (-2) (-2) (-2) 0 0 0 0 0 0 0 0 0;
T 175 0 2 1 (-2) 0 0 0 0 0 0 0 0 0 0 0;
T (-147) (-28) 0 0 0 0 0 0 0 4 0 (-3) 0 0 0 2;
T (-171) 0 1 0 2 (-3) 1 0 0 0 0 0 0 0 0 0;
T 171 0 2 0 (-2) (-6) (-2) 0 0 0 0 0 0 0 0 0;
T 32 139 0 0 0 0 0 0 5 (-7) 0 0 0 0 0 (-1);
T (-52) (-119) 0 0 0 0 0 0 0 1 0 2 (-5) 0 0 0;
T 28 (-143) 0 0 0 0 0 0 0 2 0 0 0 0 0 1;
T 167 0 2 0 0 2 (-1) 0 0 0 0 0 0 0 0 0;
T (-167) 0 0 1 2 1 1 0 0 0 0 0 0 0 0 0;
T (-32) 135 0 0 0 0 0 0 3 (-3) 0 0 0 0 0 (-1);
T 76 (-91) 0 0 0 0 0 0 2 1 0 0 0 0 0 2;
T (-139) (-28) 0 0 1 (-1) 0 0 (-5) 7 0 0 0 0 0 0;
T 163 0 2 1 2 (-2) 1 0 0 0 0 0 0 0 0 0;
T (-159) 0 1 0 2 (-1) 1 0 0 0 0 0 0 0 0 0;
T 103 (-56) 0 0 0 0 0 0 0 4 (-3) 0 0 0 0 2;
T 159 0 0 0 0 0 0 0 6 (-6) 0 0 0 0 0 0;
T 155 0 1 0 4 (-2) 1 0 0 0 0 0 0 0 0 0;
T (-28) (-127) 0 0 0 0 0 0 1 (-1) 0 0 0 0 0 1;
T (-32) (-123) 0 0 0 0 0 0 1 (-3) 0 0 0 0 0 (-1);
T (-64) 91 0 0 0 0 0 0 0 4 (-6) 0 0 0 0 0;
T (-155) 0 1 (-1) 2 (-2) 1 0 0 0 0 0 0 0 0 0;
T (-151) 0 1 0 2 (-2) (-1) 0 0 0 0 0 0 0 0 0;
T 151 0 2 (-2) 0 (-2) (-1) 0 0 0 0 0 0 0 0 0;
T (-151) 0 2 (-1) 0 (-2) 1 0 0 0 0 0 0 0 0 0;
T 151 0 2 0 0 (-1) 0 0 0 0 0 0 0 0 0 0;
T 147 0 2 0 4 (-2) 2 0 0 0 0 0 0 0 0 0;
T 147 0 0 0 2 3 2 0 0 0 0 0 0 0 0 0;
T 123 (-24) 0 0 0 0 0 0 3 (-1) 0 0 0 0 0 2;
T 95 (-52) 0 0 0 0 0 0 0 3 (-6) 0 0 0 0 (-2);
T 60 88 2 0 0 (-2) 0 0 0 (-6) 8 0 0 0 0 0;
T (-147) 0 1 (-1) 0 2 1 0 0 0 0 0 0 0 0 0;
T (-143) 0 1 0 (-2) 2 1 0 0 0 0 0 0 0 0 0;
T 143 0 1 (-1) 0 2 (-1) 0 0 0 0 0 0 0 0 0;
T 143 0 0 1 4 (-2) 2 0 0 0 0 0 0 0 0 0;
T (-119) (-24) 0 0 0 0 0 0 0 1 0 (-4) 0 0 0 (-2);
T 36 (-107) 0 0 1 (-1) 1 0 0 (-1) 0 (-4) 10 0 0 0;
T (-68) (-76) 0 0 1 (-1) 1 0 0 (-1) 0 0 0 0 2 0;
T 95 (-48) 2 0 2 0 2 0 0 2 0 (-3) 0 0 0 0;
T (-95) (-48) 0 0 2 0 2 0 0 1 0 0 0 0 0 0;
T 95 48 2 0 0 (-2) 0 0 0 (-5) 6 0 0 0 0 0;
T 143 0 1 1 0 (-1) 0 0 0 0 0 0 0 0 0 0;
T 139 0 0 0 0 4 (-1) 0 0 0 0 0 0 0 0 0;
T 139 0 2 (-1) 0 0 1 0 0 0 0 0 0 0 0 0;
T (-139) 0 1 (-2) (-2) (-2) (-2) 0 0 0 0 0 0 0 0 0;
T (-139) 0 1 2 0 0 0 0 0 0 0 0 0 0 0 0;
T 0 139 0 0 0 0 0 0 0 2 0 (-1) 0 0 0 0;
T (-12) (-127) 0 0 0 0 0 0 0 4 0 (-1) 0 0 0 2;
T 32 (-107) 0 0 0 0 0 0 0 1 0 0 0 0 0 0;
T 56 84 0 0 0 0 0 0 0 2 (-4) 0 0 0 0 (-1);
T (-44) (-95) 0 0 0 0 0 0 0 0 0 2 (-5) 0 0 (-2);
T 103 (-36) 2 0 (-1) (-1) 0 0 0 3 (-7) 0 0 0 0 0;
T (-28) 111 0 0 1 (-1) 1 0 (-4) 5 0 0 0 0 0 0;
T 44 95 0 0 1 (-1) 2 0 0 (-1) 0 0 2 0 0 0;
T (-135) 0 1 (-1) (-2) 2 0 0 0 0 0 0 0 0 0 0;
T (-135) 0 0 0 0 0 0 0 9 (-11) 0 0 0 0 0 (-2);
T 88 48 0 0 0 0 0 0 0 1 (-8) 3 0 0 0 (-2);
T 135 0 1 0 0 (-2) 0 0 0 (-2) 0 2 0 0 0 0;
T 135 0 1 0 0 (-1) (-2) 0 0 0 0 0 0 0 0 0;
T (-131) 0 0 1 (-2) 2 1 0 0 0 0 0 0 0 0 0;
T 131 0 1 0 (-2) 1 (-2) 0 0 0 0 0 0 0 0 0;
T (-119) (-12) 0 0 0 0 0 0 2 (-3) 0 0 0 0 0 (-1);
T 127 0 0 0 4 0 1 0 0 0 0 0 0 0 0 0;
T 40 (-88) 0 0 2 (-2) 1 0 0 (-9) 13 0 0 0 0 0;
T 127 0 1 0 (-2) (-6) (-2) 0 0 0 0 0 0 0 0 0;
T 127 0 3 1 2 (-2) 2 0 0 0 0 0 0 0 0 0;
T (-16) (-111) 0 0 0 0 0 0 1 0 0 0 0 0 0 0;
T (-84) 44 2 0 0 0 0 0 0 (-2) 0 3 0 0 0 0;
T 84 (-44) 1 0 2 0 1 0 0 (-2) 0 3 0 0 0 0;
T 84 (-44) 1 0 (-2) 0 (-1) 0 0 (-1) 0 0 0 0 0 0;
T (-127) 0 1 0 (-4) (-2) (-2) 0 0 0 0 0 0 0 0 0;
T (-127) 0 1 0 0 4 1 0 0 0 0 0 0 0 0 0;
T 127 0 1 1 0 2 1 0 0 0 0 0 0 0 0 0;
T (-44) (-84) 0 0 0 0 1 0 0 (-2) 4 0 0 0 0 0;
T 0 (-127) 0 0 0 0 1 0 2 (-3) 0 0 0 0 0 0;
T (-127) 0 2 0 2 (-4) 2 0 0 0 0 0 0 0 0 0;
T (-123) 0 1 (-1) (-2) (-4) (-2) 0 0 0 0 0 0 0 0 0;
T (-123) 0 1 (-2) 2 2 2 0 0 0 0 0 0 0 0 0;
T 123 0 0 0 2 (-1) 0 0 0 0 0 0 0 0 0 0;
T 0 123 0 0 0 0 0 0 0 3 (-6) 0 0 0 0 0;
T (-12) 111 0 0 1 1 1 0 0 1 0 0 0 0 0 0;
T 122 0 0 0 2 (-4) 2 0 0 0 0 0 0 0 0 0;
T 119 0 1 1 (-2) (-4) (-1) 0 0 0 0 0 0 0 0 0;
T (-24) 95 0 0 0 0 0 0 4 (-4) 0 0 0 0 0 (-1);
T (-76) (-44) 0 0 0 0 0 0 0 3 (-8) 3 0 0 0 0;
T 91 28 0 0 0 0 0 0 0 1 (-2) 0 0 0 0 1;
T 119 0 1 1 (-2) 1 0 0 0 0 0 0 0 0 0 0;
T 119 0 3 0 2 0 0 0 0 0 0 0 0 0 0 0;
T 0 119 0 0 1 0 2 0 0 0 0 0 0 0 0 0;
T 115 0 2 (-1) 0 0 (-1) 0 0 0 0 0 0 0 0 0;
T 0 115 1 0 0 (-1) 1 0 (-3) 4 0 0 0 0 0 0;
T (-115) 0 1 0 2 4 1 0 0 0 0 0 0 0 0 0;
T 115 0 2 (-1) (-2) 0 0 0 0 0 0 0 0 0 0 0;
T (-115) 0 2 0 (-2) 2 0 0 0 0 0 0 0 0 0 0;
T 115 0 3 (-1) 0 0 0 0 0 0 0 0 0 0 0 0;
T 115 0 0 0 0 0 0 0 0 3 0 0 (-1) 0 0 2;
T (-95) 20 0 0 0 0 0 0 6 (-10) 0 0 0 0 0 (-2);
T 24 91 0 0 0 0 0 0 0 0 0 3 0 0 0 1;
T (-115) 0 1 1 2 (-2) 0 0 0 0 0 0 0 0 0 0;
T (-112) 0 0 1 2 (-2) (-1) 0 0 0 0 0 0 0 0 0;
T (-111) 0 1 0 0 1 (-1) 0 0 0 0 0 0 0 0 0;
T (-111) 0 1 2 0 (-2) (-1) 0 0 0 0 0 0 0 0 0;
T 16 95 0 0 0 0 1 0 0 0 0 0 1 0 0 0;
T (-111) 0 2 0 2 (-4) 0 0 0 0 0 0 0 0 0 0;
T 111 0 0 0 0 0 0 0 7 (-7) 0 0 0 0 0 0;
T 20 (-91) 0 0 0 0 0 0 1 1 0 0 0 0 0 1;
T (-72) (-40) 0 0 0 0 0 0 0 0 3 0 0 0 0 2;
T (-111) 0 1 1 (-2) (-2) 0 0 0 0 0 0 0 0 0 0;
T (-111) 0 0 0 0 0 1 0 1 (-1) 0 0 0 0 0 0;
T 107 0 2 (-1) (-2) (-2) (-2) 0 0 0 0 0 0 0 0 0;
T (-107) 0 2 0 2 4 2 0 0 0 0 0 0 0 0 0;
T 0 (-107) 0 0 0 0 0 0 3 (-6) 0 0 0 0 0 (-2);
T 107 0 0 0 0 0 0 0 0 3 (-3) 0 0 0 0 0;
T 76 (-32) 0 0 0 0 0 0 0 1 (-4) 0 0 0 0 (-2);
T 107 0 0 0 2 (-2) 1 0 (-4) 4 0 0 0 0 0 0;
T (-107) 0 0 1 (-2) (-2) 0 0 0 0 0 0 0 0 0 0;
T 107 0 0 0 2 (-3) 1 0 0 0 0 0 0 0 0 0;
T (-84) (-24) 0 0 0 0 1 0 (-3) 5 0 0 0 0 0 0;
T 0 (-103) 0 0 3 0 3 0 0 0 0 0 0 0 0 0;
T 103 0 2 1 2 2 2 0 0 0 0 0 0 0 0 0;
T (-103) 0 3 0 2 (-4) 2 0 0 0 0 0 0 0 0 0;
T (-24) 80 0 0 0 0 0 0 0 1 0 0 (-2) 0 0 0;
T 20 84 0 0 1 (-1) 1 0 (-1) 0 0 0 0 0 0 0;
T (-103) 0 3 0 (-2) (-2) (-1) 0 0 0 0 0 0 0 0 0;
T (-103) 0 0 0 0 0 3 0 0 0 0 0 0 0 0 0;
T (-99) 0 2 0 0 1 0 0 0 0 0 0 0 0 0 0;
T 24 76 0 0 0 0 0 0 2 (-1) 0 0 0 0 0 0;
T (-99) 0 0 0 0 0 0 0 0 7 (-8) 3 0 0 0 2;
T (-16) 84 0 0 0 0 0 0 0 2 0 (-2) 0 0 0 1;
T (-99) 0 0 0 0 0 0 0 0 1 (-1) 0 0 0 0 0;
T (-64) 36 0 0 0 0 0 0 0 4 (-7) 0 0 0 0 (-2);
T 99 0 1 (-2) 0 2 0 0 0 0 0 0 0 0 0 0;
T 36 (-64) 0 0 1 (-1) 0 0 0 (-1) 0 (-2) 5 0 0 0;
T (-95) 0 3 0 2 2 1 0 0 0 0 0 0 0 0 0;
T (-95) 0 1 (-1) 2 4 2 0 0 0 0 0 0 0 0 0;
T 0 95 0 0 1 (-1) 0 0 0 (-1) 0 (-1) 1 0 0 0;
T 64 32 1 0 0 (-1) 0 0 0 (-3) 4 0 0 0 0 0;
T 84 12 0 0 0 0 0 0 0 5 (-8) 3 0 0 0 0;
T 0 (-95) 0 0 0 0 0 0 7 (-10) 0 0 0 0 0 (-2);
T 20 76 0 0 0 0 0 0 6 (-8) 0 0 0 0 0 (-1);
T (-95) 0 3 0 (-2) 0 0 0 0 0 0 0 0 0 0 0;
T 95 0 1 0 4 0 2 0 0 0 0 0 0 0 0 0;
T (-95) 0 1 (-1) (-2) 2 (-2) 0 0 0 0 0 0 0 0 0;
T 0 92 1 0 0 (-1) (-1) 0 (-3) 4 0 0 0 0 0 0;
T 91 0 1 1 2 2 1 0 0 0 0 0 0 0 0 0;
T 91 0 3 0 (-2) (-6) (-2) 0 0 0 0 0 0 0 0 0;
T 40 52 1 (-2) 2 (-2) 1 0 0 0 0 0 0 0 0 0;
T (-91) 0 5 0 2 0 2 0 0 0 0 0 0 0 0 0;
T (-56) 36 0 0 0 0 0 0 3 (-9) 4 0 0 0 0 (-2);
T 44 (-48) 0 0 1 (-1) 1 0 8 (-14) 0 0 0 0 0 0;
T (-91) 0 2 0 0 (-6) 0 0 0 0 0 0 0 0 0 0;
T (-91) 0 3 1 0 0 0 0 0 0 0 0 0 0 0 0;
T (-36) (-56) 0 0 1 (-1) 1 0 3 (-6) 0 0 0 0 0 0;
T 91 0 1 0 0 2 2 0 0 0 0 0 0 0 0 0;
T (-88) 0 1 2 0 (-2) 1 0 0 0 0 0 0 0 0 0;
T (-88) 0 2 1 0 0 (-1) 0 0 0 0 0 0 0 0 0;
T 60 (-28) 0 0 0 0 1 0 0 8 (-15) 0 0 0 0 0;
T 88 0 0 2 (-2) (-2) (-1) 0 0 0 0 0 0 0 0 0;
T 56 32 0 0 0 0 0 0 0 8 (-15) 0 0 0 0 (-2);
T 0 88 0 0 0 0 0 0 0 4 (-7) 0 0 0 0 0;
T 36 (-52) 0 0 1 (-1) 1 0 0 (-3) 4 0 0 0 0 0;
T (-52) 36 0 0 0 0 0 0 3 (-5) 4 0 0 0 0 2;
T 52 36 0 0 0 0 0 0 0 6 0 0 0 0 0 2;
T 64 (-24) 0 0 0 0 0 0 0 4 (-5) 0 0 0 0 0;
T 88 0 1 (-1) 0 (-4) 0 0 0 0 0 0 0 0 0 0;
T 88 0 1 (-1) 2 0 0 0 0 0 0 0 0 0 0 0;
T 88 0 1 (-1) 2 (-1) 2 0 0 0 0 0 0 0 0 0;
T 84 0 0 1 0 (-2) (-2) 0 0 0 0 0 0 0 0 0;
T (-68) (-16) 2 0 0 (-2) 1 0 (-6) 8 0 0 0 0 0 0;
T 84 0 1 2 2 0 2 0 0 0 0 0 0 0 0 0;
T 56 28 0 0 1 (-1) 0 0 (-8) 12 0 0 0 0 0 0;
T (-16) 68 0 0 0 0 0 0 5 (-5) 0 0 0 0 0 (-1);
T 16 68 0 0 0 0 0 0 1 2 0 0 0 0 0 2;
T 72 (-12) 0 0 0 0 0 0 0 3 0 (-3) 0 0 0 0;
T 64 (-20) 0 0 0 0 0 0 5 (-7) 0 0 0 0 0 0;
T (-83) 0 2 0 (-2) 0 2 0 0 0 0 0 0 0 0 0;
T (-80) 0 2 1 0 0 1 0 0 0 0 0 0 0 0 0;
T 80 0 2 2 0 (-2) 0 0 0 0 0 0 0 0 0 0;
T (-80) 0 4 0 0 (-2) 0 0 0 0 0 0 0 0 0 0;
T 68 (-12) 0 0 0 0 0 0 3 0 0 0 0 0 0 2;
T (-32) 48 0 0 0 0 0 0 0 5 (-9) 0 0 0 0 (-2);
T 0 (-80) 0 0 0 0 0 0 0 2 0 0 (-1) 0 0 2;
T 28 52 0 0 0 0 0 0 0 5 (-9) 0 0 0 0 0;
T 36 (-44) 0 0 0 0 0 0 0 3 0 (-3) 0 0 0 2;
T (-36) (-44) 0 0 0 0 0 0 0 0 0 0 0 0 2 1;
T (-80) 0 0 1 2 0 0 0 0 0 0 0 0 0 0 0;
T 79 0 1 1 0 (-2) (-2) 0 0 0 0 0 0 0 0 0;
T 74 (-4) 0 0 2 (-2) 3 0 0 0 0 0 0 0 0 0;
T (-76) 0 0 0 0 0 1 0 (-1) 1 0 0 0 0 0 0;
T 0 76 0 0 0 0 1 0 (-2) 3 0 0 0 0 0 0;
T 16 60 0 0 0 0 1 0 0 0 0 (-1) 0 0 0 0;
T (-76) 0 1 0 0 1 1 0 0 0 0 0 0 0 0 0;
T (-76) 0 3 0 0 (-4) (-1) 0 0 0 0 0 0 0 0 0;
T 76 0 2 1 (-2) (-4) (-1) 0 0 0 0 0 0 0 0 0;
T (-76) 0 2 (-1) (-2) (-4) (-2) 0 0 0 0 0 0 0 0 0;
T 76 0 1 0 (-4) 2 (-1) 0 0 0 0 0 0 0 0 0;
T 12 64 0 0 1 (-1) 0 0 0 (-1) 0 2 0 0 0 0;
T 76 0 1 0 0 (-2) 0 0 (-3) 3 0 0 0 0 0 0;
T 0 76 0 0 1 (-1) 1 0 0 (-9) 15 0 0 0 0 0;
T 76 0 0 0 0 0 0 0 8 (-8) 0 0 0 0 0 0;
T 64 (-12) 0 0 0 0 0 0 7 (-11) 0 0 0 0 0 (-2);
T 16 (-60) 0 0 0 0 0 0 2 0 0 0 0 0 0 1;
T 28 (-48) 0 0 0 0 0 0 0 5 (-5) 0 0 0 0 2;
T 76 0 0 0 0 0 0 0 0 3 (-1) 0 0 0 0 2;
T 0 (-76) 0 0 0 0 0 0 0 2 0 0 1 0 0 2;
T 32 44 0 0 0 0 0 0 0 1 0 1 0 0 0 0;
T (-76) 0 1 1 2 0 0 0 0 0 0 0 0 0 0 0;
T 72 0 4 0 2 (-2) 1 0 0 0 0 0 0 0 0 0;
T 72 0 1 (-1) (-2) 0 0 0 0 0 0 0 0 0 0 0;
T 48 (-24) 0 0 0 0 0 0 0 2 0 (-2) 5 0 0 2;
T (-72) 0 0 1 2 (-4) 1 0 0 0 0 0 0 0 0 0;
T 72 0 0 0 1 (-1) 1 0 (-2) 2 0 0 0 0 0 0;
T (-72) 0 0 0 2 1 0 0 0 0 0 0 0 0 0 0;
T (-72) 0 3 0 (-2) 0 (-2) 0 0 0 0 0 0 0 0 0;
T (-71) 0 1 (-1) 0 0 2 0 0 0 0 0 0 0 0 0;
T (-68) 0 1 0 (-2) (-2) 1 0 0 0 0 0 0 0 0 0;
T (-68) 0 0 2 0 (-2) 1 0 0 0 0 0 0 0 0 0;
T 68 0 0 1 (-4) 2 (-2) 0 0 0 0 0 0 0 0 0;
T 68 0 0 1 2 4 2 0 0 0 0 0 0 0 0 0;
T 68 0 1 0 (-2) 4 (-1) 0 0 0 0 0 0 0 0 0;
T (-68) 0 0 2 2 (-2) 0 0 0 0 0 0 0 0 0 0;
T 56 (-12) 0 0 0 0 0 0 5 (-3) 0 0 0 0 0 2;
T (-68) 0 0 0 0 0 0 0 0 3 (-5) 0 0 0 0 (-2);
T (-68) 0 0 0 0 0 0 0 0 2 0 (-4) 0 0 0 (-2);
T 20 48 0 0 0 0 0 0 0 3 0 2 (-5) 0 0 2;
T (-44) (-24) 0 0 0 0 0 0 0 2 0 2 (-5) 0 0 2;
T (-68) 0 1 1 (-2) 0 0 0 0 0 0 0 0 0 0 0;
T 64 0 2 0 0 (-2) 1 0 (-3) 3 0 0 0 0 0 0;
T 64 0 3 0 0 (-2) (-1) 0 0 0 0 0 0 0 0 0;
T (-64) 0 2 (-1) 2 2 1 0 0 0 0 0 0 0 0 0;
T 64 0 0 1 (-2) (-4) (-1) 0 0 0 0 0 0 0 0 0;
T (-64) 0 1 0 (-2) (-3) (-1) 0 0 0 0 0 0 0 0 0;
T (-12) 52 0 0 0 0 0 0 6 (-6) 0 0 0 0 0 (-1);
T (-12) (-52) 0 0 0 0 0 0 2 (-2) 0 0 0 0 0 1;
T (-20) (-44) 0 0 0 0 0 0 2 (-3) 0 0 0 0 0 (-2);
T (-44) 20 0 0 0 0 0 0 0 11 0 0 0 0 0 2;
T (-44) 20 0 0 0 0 0 0 0 6 (-15) 0 0 0 0 (-2);
T 24 (-40) 0 0 0 0 0 0 0 4 (-8) 0 0 0 0 (-2);
T (-20) (-44) 0 0 0 0 0 0 0 3 0 1 0 0 0 2;
T (-16) (-48) 0 0 0 0 0 0 0 3 0 (-2) 0 0 0 0;
T (-64) 0 1 0 0 (-6) 0 0 0 0 0 0 0 0 0 0;
T 40 (-24) 0 0 0 0 1 0 3 (-7) 4 0 0 0 0 0;
T (-64) 0 1 0 (-2) (-4) 0 0 0 0 0 0 0 0 0 0;
T 64 0 0 1 0 (-4) (-1) 0 0 0 0 0 0 0 0 0;
T (-63) 0 2 0 (-2) 2 (-2) 0 0 0 0 0 0 0 0 0;
T (-60) 0 0 1 (-2) 1 (-1) 0 0 0 0 0 0 0 0 0;
T 0 60 0 0 2 (-2) 2 0 (-8) 11 0 0 0 0 0 0;
T (-60) 0 2 0 (-2) (-3) (-2) 0 0 0 0 0 0 0 0 0;
T (-60) 0 4 0 2 2 2 0 0 0 0 0 0 0 0 0;
T 12 48 0 0 0 0 0 0 7 (-9) 0 0 0 0 0 (-1);
T 48 (-12) 0 0 0 0 0 0 4 (-7) 0 0 0 0 0 (-1);
T 12 48 0 0 0 0 0 0 3 (-3) 0 0 0 0 0 1;
T 12 48 0 0 0 0 0 0 0 5 0 (-2) 0 0 0 2;
T 60 0 0 0 0 0 0 0 0 2 0 0 (-2) 0 0 0;
T 0 60 0 0 0 0 0 0 0 0 0 0 3 0 0 2;
T 24 (-36) 2 0 0 (-2) 0 0 0 (-2) 0 4 (-3) 0 0 0;
T 24 (-36) 0 0 0 0 0 0 0 6 (-6) 0 0 0 0 2;
T 36 24 0 0 0 0 0 0 0 6 (-11) 0 0 0 0 0;
T 44 16 0 0 0 0 0 0 0 2 0 (-4) 0 0 0 0;
T (-60) 0 0 0 0 3 0 0 0 0 0 0 0 0 0 0;
T (-60) 0 2 0 0 (-2) 0 0 0 (-2) 0 3 (-1) 0 0 0;
T 60 0 2 (-1) 0 (-4) 0 0 0 0 0 0 0 0 0 0;
T 0 60 0 0 1 (-1) 2 0 0 (-2) 2 0 0 0 0 0;
T 59 0 0 0 0 0 1 0 0 1 0 (-1) 0 0 0 0;
T (-56) 0 3 0 0 (-4) 1 0 0 0 0 0 0 0 0 0;
T (-44) (-12) 2 0 0 (-2) (-1) 0 (-6) 8 0 0 0 0 0 0;
T 56 0 1 2 (-2) (-2) (-1) 0 0 0 0 0 0 0 0 0;
T 0 56 0 0 1 (-1) 1 0 0 (-1) 0 (-1) 1 0 0 0;
T (-56) 0 3 1 0 (-4) 0 0 0 0 0 0 0 0 0 0;
T (-56) 0 3 0 0 (-6) 0 0 0 0 0 0 0 0 0 0;
T 16 40 0 0 0 0 0 1 0 (-4) 0 0 0 0 0 (-2);
T 44 (-12) 0 0 0 0 0 0 4 (-4) 0 0 0 0 0 2;
T 56 0 0 0 0 0 0 0 0 6 0 0 0 0 0 0;
T (-56) 0 0 0 0 0 0 0 0 1 0 0 1 0 0 2;
T 20 (-36) 0 0 0 0 0 0 0 1 (-5) 0 0 0 0 (-2);
T (-36) (-20) 0 0 0 0 1 0 (-3) 7 (-4) 0 0 0 0 0;
T (-56) 0 0 0 4 (-4) 1 0 0 0 0 0 0 0 0 0;
T 55 0 1 1 0 (-2) 2 0 0 0 0 0 0 0 0 0;
T 52 0 1 0 0 (-4) (-2) 0 0 0 0 0 0 0 0 0;
T (-52) 0 1 1 0 (-4) 1 0 0 0 0 0 0 0 0 0;
T 52 0 0 0 0 0 1 0 3 (-5) 0 2 0 0 0 0;
T 52 0 0 1 0 (-1) 0 0 0 0 0 0 0 0 0 0;
T 16 36 0 0 1 (-1) 0 0 0 (-1) 0 0 2 0 0 0;
T (-52) 0 0 0 2 (-2) 0 0 (-3) 3 0 0 0 0 0 0;
T 12 40 0 0 0 0 0 0 5 (-6) 0 0 0 0 0 2;
T (-52) 0 1 0 0 (-2) 0 0 0 (-2) 0 3 0 0 0 0;
T (-52) 0 1 0 (-2) (-2) (-2) 0 0 (-2) 0 2 0 0 0 0;
T (-52) 0 0 0 2 6 2 0 0 0 0 0 0 0 0 0;
T 0 (-52) 0 0 1 (-1) 1 0 2 (-4) 0 (-3) 0 0 0 0;
T 52 0 0 0 0 0 0 0 9 (-9) 0 0 0 0 0 0;
T (-52) 0 0 0 0 0 0 0 0 1 1 0 0 0 0 2;
T 52 0 1 0 (-4) 0 0 0 0 0 0 0 0 0 0 0;
T (-52) 0 2 0 (-2) (-4) 0 0 0 0 0 0 0 0 0 0;
T 0 (-52) 1 0 1 0 1 0 0 0 0 0 0 0 0 0;
T 52 0 1 1 0 0 2 0 0 0 0 0 0 0 0 0;
T 52 0 0 0 0 1 2 0 0 0 0 0 0 0 0 0;
T (-51) 0 1 0 0 2 (-2) 0 0 0 0 0 0 0 0 0;
T (-51) 0 1 0 2 0 3 0 0 0 0 0 0 0 0 0;
T 48 0 0 1 0 2 2 0 0 0 0 0 0 0 0 0;
T 48 0 0 0 2 2 (-1) 0 0 0 0 0 0 0 0 0;
T (-16) 32 0 0 0 0 1 0 0 2 (-4) 0 0 0 0 0;
T (-48) 0 1 (-2) 2 (-2) 2 0 0 0 0 0 0 0 0 0;
T (-48) 0 0 1 (-2) (-1) (-2) 0 0 0 0 0 0 0 0 0;
T 48 0 3 (-1) 2 (-2) 2 0 0 0 0 0 0 0 0 0;
T 48 0 4 0 0 (-4) 0 0 0 0 0 0 0 0 0 0;
T (-48) 0 3 (-1) 2 2 2 0 0 0 0 0 0 0 0 0;
T (-12) (-36) 0 0 1 (-1) 1 0 0 (-1) 0 3 0 0 0 0;
T (-32) 16 0 0 1 (-1) 1 0 0 (-1) 0 0 3 0 0 0;
T 32 (-16) 0 0 0 0 0 0 4 (-2) 0 0 0 0 0 2;
T (-12) (-36) 0 0 0 0 0 0 3 (-5) 0 0 0 0 0 1;
T 16 32 0 0 0 0 0 0 0 7 (-13) 0 0 0 0 (-2);
T 20 (-28) 0 0 0 0 0 0 0 5 (-7) 0 0 0 0 0;
T (-20) (-28) 0 0 0 0 0 0 0 1 0 3 0 0 0 2;
T (-36) 12 0 0 0 0 0 0 0 0 0 4 0 0 0 2;
T (-48) 0 0 0 0 0 0 0 0 0 0 2 (-5) 0 0 2;
T 32 (-16) 0 0 0 0 0 0 0 0 0 0 3 0 0 1;
T 48 0 1 (-1) 0 4 0 0 0 0 0 0 0 0 0 0;
T (-48) 0 2 1 0 2 0 0 0 0 0 0 0 0 0 0;
T (-48) 0 2 0 0 (-2) (-1) 0 0 (-2) 0 0 5 0 0 0;
T (-48) 0 3 0 0 2 1 0 0 0 0 0 0 0 0 0;
T 0 (-48) 1 0 1 (-2) 1 0 0 0 0 0 0 0 0 0;
T 48 0 1 1 0 (-4) (-1) 0 0 0 0 0 0 0 0 0;
T (-48) 0 0 0 2 (-2) 2 0 (-3) 3 0 0 0 0 0 0;
T (-48) 0 1 0 0 (-1) 2 0 0 0 0 0 0 0 0 0;
T 0 48 0 0 2 (-2) 2 0 (-5) 6 0 0 0 0 0 0;
T 44 0 0 0 0 0 1 0 0 (-1) 0 1 0 0 0 0;
T (-32) (-12) 0 0 1 (-1) (-1) 0 0 0 (-2) 0 0 0 0 0;
T (-44) 0 0 1 (-2) 0 0 0 0 0 0 0 0 0 0 0;
T 20 (-24) 0 0 0 0 0 0 0 9 (-17) 0 0 0 0 0;
T 12 32 0 0 0 0 0 0 5 (-10) 0 0 0 0 0 (-2);
T 32 (-12) 0 0 0 0 0 0 1 (-3) 0 0 0 0 0 0;
T 44 0 3 (-1) (-2) (-1) (-2) 0 0 0 0 0 0 0 0 0;
T (-44) 0 1 (-1) 0 (-3) 0 0 0 0 0 0 0 0 0 0;
T 44 0 0 0 2 (-2) 1 0 (-2) 2 0 0 0 0 0 0;
T 20 (-24) 0 0 0 0 0 0 8 (-13) 0 0 0 0 0 1;
T (-20) 24 0 0 0 0 0 0 1 0 0 0 0 0 0 2;
T 0 44 0 0 0 0 0 0 0 6 (-11) 0 0 0 0 (-2);
T 0 44 0 0 0 0 0 0 0 5 (-8) 0 0 0 0 0;
T 44 0 0 0 0 0 0 0 0 1 (-3) 0 0 0 0 (-2);
T (-44) 0 1 2 0 (-4) 0 0 0 0 0 0 0 0 0 0;
T (-44) 0 0 1 0 4 0 0 0 0 0 0 0 0 0 0;
T (-44) 0 3 0 2 (-2) 0 0 0 0 0 0 0 0 0 0;
T 44 0 1 (-1) 2 (-4) 1 0 0 0 0 0 0 0 0 0;
T 44 0 2 0 2 2 0 0 0 0 0 0 0 0 0 0;
T 40 0 2 0 2 0 (-1) 0 0 0 0 0 0 0 0 0;
T (-40) 0 2 1 0 (-4) (-1) 0 0 0 0 0 0 0 0 0;
T (-40) 0 2 1 0 (-4) 1 0 0 0 0 0 0 0 0 0;
T (-40) 0 1 0 4 (-4) 2 0 0 0 0 0 0 0 0 0;
T 40 0 2 0 (-4) 0 (-1) 0 0 0 0 0 0 0 0 0;
T 24 16 2 0 0 (-2) (-1) 0 0 (-5) 6 0 0 0 0 0;
T 0 (-40) 0 0 3 0 2 0 0 0 0 0 0 0 0 0;
T 12 28 2 0 (-1) (-1) (-1) 0 0 (-1) 0 3 0 0 0 0;
T 40 0 1 2 (-2) (-4) (-2) 0 0 0 0 0 0 0 0 0;
T (-40) 0 0 0 4 (-1) 2 0 0 0 0 0 0 0 0 0;
T 40 0 0 0 0 0 0 0 0 7 (-13) 0 0 0 0 0;
T (-12) (-28) 0 0 0 0 0 0 0 4 (-8) 1 5 0 0 (-2);
T 40 0 5 0 2 (-2) 2 0 0 0 0 0 0 0 0 0;
T 0 (-40) 0 0 0 0 0 0 9 (-12) 0 0 0 0 0 (-2);
T (-40) 0 0 0 0 0 0 0 5 (-9) 0 0 0 0 0 (-2);
T 0 (-40) 0 0 0 0 0 0 4 (-4) 0 0 0 0 0 1;
T 0 (-40) 0 0 0 0 0 0 3 (-1) 0 0 0 0 0 1;
T 20 (-20) 0 0 0 0 0 0 2 (-4) 0 0 0 0 0 0;
T (-40) 0 0 0 0 0 0 0 1 (-2) 0 0 0 0 0 1;
T (-40) 0 0 0 0 0 0 0 0 5 (-3) 0 0 0 0 2;
T 40 0 0 0 0 0 0 0 3 (-5) 0 2 0 0 0 0;
T 40 0 1 1 (-2) 2 0 0 0 0 0 0 0 0 0 0;
T 40 0 2 0 0 4 0 0 0 0 0 0 0 0 0 0;
T 40 0 0 0 0 3 1 0 0 0 0 0 0 0 0 0;
T 40 0 4 0 (-2) (-2) (-1) 0 0 0 0 0 0 0 0 0;
T 0 40 0 0 1 (-1) 2 0 0 (-1) 0 2 0 0 0 0;
T (-20) (-16) 0 0 0 0 2 0 0 (-1) 2 0 0 0 0 0;
T 36 0 1 0 0 (-3) 1 0 0 0 0 0 0 0 0 0;
T 36 0 1 (-2) 0 0 1 0 0 0 0 0 0 0 0 0;
T 24 (-12) 0 2 (-2) 0 (-1) 0 0 0 0 0 0 0 0 0;
T 20 (-16) 2 0 (-1) (-1) (-1) 0 0 3 (-7) 0 0 0 0 0;
T 0 36 0 0 2 0 2 0 0 (-4) 8 (-3) 0 0 0 0;
T 0 36 0 0 2 0 2 0 0 4 (-8) 3 0 0 0 0;
T (-36) 0 2 1 (-2) (-2) (-1) 0 0 0 0 0 0 0 0 0;
T 12 24 1 0 1 0 0 0 0 0 0 0 0 0 0 0;
T (-36) 0 2 (-2) 2 0 2 0 0 0 0 0 0 0 0 0;
T (-36) 0 0 3 0 (-2) 0 0 0 0 0 0 0 0 0 0;
T (-36) 0 2 (-1) 0 (-1) 0 0 0 0 0 0 0 0 0 0;
T (-36) 0 1 3 0 (-2) 0 0 0 0 0 0 0 0 0 0;
T 36 0 1 (-1) (-2) (-3) (-2) 0 0 0 0 0 0 0 0 0;
T 0 36 0 0 1 (-1) 1 0 (-2) 3 0 0 0 0 0 0;
T 0 36 0 0 0 0 0 0 7 (-7) 0 0 0 0 0 (-1);
T 0 36 0 0 0 0 0 0 6 (-7) 0 0 0 0 0 0;
T (-36) 0 0 0 0 0 0 0 6 (-9) 0 0 0 0 0 (-1);
T 0 36 0 0 0 0 0 0 4 (-3) 0 0 0 0 0 2;
T 12 (-24) 0 0 0 0 0 0 1 (-2) 0 0 0 0 0 (-2);
T (-24) 12 0 0 0 0 0 0 0 6 (-5) 0 0 0 0 2;
T (-36) 0 0 0 0 0 0 0 0 5 0 (-3) 0 0 0 2;
T 0 36 0 0 0 0 0 0 0 3 (-2) 0 0 0 0 0;
T 36 0 0 0 0 0 0 0 0 3 (-6) 0 0 0 0 (-1);
T 24 (-12) 0 0 0 0 0 0 0 2 (-5) 0 0 0 0 (-2);
T 0 (-36) 0 0 1 (-1) 1 0 0 1 0 0 0 0 0 0;
T (-36) 0 1 (-2) (-2) 0 (-2) 0 0 0 0 0 0 0 0 0;
T 36 0 2 0 0 2 2 0 0 0 0 0 0 0 0 0;
T 36 0 0 1 0 (-2) 2 0 0 0 0 0 0 0 0 0;
T (-36) 0 0 0 2 0 (-2) 0 0 0 0 0 0 0 0 0;
T 36 0 0 0 2 (-2) (-2) 0 0 0 0 0 0 0 0 0;
T (-13) 22 0 0 1 (-1) 2 0 0 (-1) 0 (-2) 5 0 0 0;
T (-32) 0 0 0 0 0 1 0 3 (-5) 0 0 0 0 0 0;
T (-32) 0 1 1 0 2 (-1) 0 0 0 0 0 0 0 0 0;
T 32 0 4 0 0 0 (-1) 0 0 0 0 0 0 0 0 0;
T (-20) (-12) 0 0 0 0 1 0 0 (-8) 15 0 0 0 0 0;
T 32 0 0 2 2 0 1 0 0 0 0 0 0 0 0 0;
T 12 20 2 0 0 (-2) 1 0 0 (-6) 8 0 0 0 0 0;
T (-32) 0 3 (-1) 2 0 1 0 0 0 0 0 0 0 0 0;
T 32 0 0 0 2 0 2 0 1 (-1) 0 0 0 0 0 0;
T (-32) 0 0 0 2 0 2 0 (-1) 1 0 0 0 0 0 0;
T (-32) 0 2 0 2 (-1) 1 0 0 0 0 0 0 0 0 0;
T 0 (-32) 2 0 (-1) (-1) (-2) 0 0 (-1) 0 2 0 0 0 0;
T 32 0 1 2 2 (-2) 1 0 0 0 0 0 0 0 0 0;
T 32 0 2 2 2 (-2) 2 0 0 0 0 0 0 0 0 0;
T 12 (-20) 0 0 2 (-2) 0 0 0 (-9) 13 0 0 0 0 0;
T (-32) 0 3 0 2 (-1) 2 0 0 0 0 0 0 0 0 0;
T 0 (-32) 1 0 0 (-2) 0 0 20 (-21) 0 0 0 0 0 0;
T 32 0 0 0 2 (-2) 1 0 0 (-2) 0 0 2 0 0 0;
T 0 32 0 0 2 (-2) 1 0 0 (-8) 11 0 0 0 0 0;
T 0 (-32) 0 0 1 (-1) 1 0 0 (-1) 0 0 0 2 0 0;
T 0 (-32) 0 0 1 (-1) 1 0 0 (-1) 0 (-1) 2 0 0 0;
T 20 12 0 0 1 (-1) 1 0 0 (-1) 0 (-2) 4 0 0 0;
T 20 12 0 0 0 0 0 1 0 (-4) 0 0 0 0 0 0;
T 32 0 0 0 0 0 0 0 8 (-12) 0 0 0 0 0 0;
T (-32) 0 0 0 0 0 0 0 5 (-5) 0 0 0 0 0 2;
T 0 32 0 0 0 0 0 0 5 (-6) 0 0 0 0 0 0;
T 32 0 0 0 0 0 0 0 2 (-6) 0 0 0 0 0 (-2);
T 0 32 0 0 0 0 0 0 0 8 (-15) 0 0 0 0 (-1);
T 0 (-32) 0 0 0 0 0 0 0 5 (-2) 0 0 0 0 2;
T (-20) 12 0 0 0 0 0 0 0 5 (-8) 0 0 0 0 (-2);
T 32 0 0 0 0 0 0 0 0 4 (-4) 0 0 0 0 0;
T 12 20 0 0 0 0 0 0 0 4 (-8) 0 0 0 0 0;
T 12 (-20) 0 0 0 0 0 0 0 2 (-6) 0 0 0 0 (-2);
T 0 32 0 0 0 0 0 0 0 0 0 0 1 0 0 2;
T (-16) 16 0 0 0 0 0 0 0 2 2 0 0 0 0 2;
T (-16) 16 0 0 0 0 0 0 0 1 0 (-4) 0 0 0 0;
T 0 32 0 0 2 (-2) 1 (-1) 0 2 0 0 0 0 0 0;
T (-32) 0 0 0 4 (-2) 0 0 0 0 0 0 0 0 0 0;
T 32 0 0 0 0 1 (-2) 0 0 0 0 0 0 0 0 0;
T 28 0 2 0 (-4) 2 (-2) 0 0 0 0 0 0 0 0 0;
T (-28) 0 0 0 0 4 2 0 0 0 0 0 0 0 0 0;
T 28 0 1 0 0 4 (-1) 0 0 0 0 0 0 0 0 0;
T 28 0 1 (-2) 0 (-2) (-1) 0 0 0 0 0 0 0 0 0;
T 28 0 1 1 0 (-1) 1 0 0 0 0 0 0 0 0 0;
T 16 12 1 0 0 (-1) 1 0 0 (-3) 4 0 0 0 0 0;
T 28 0 3 1 2 0 1 0 0 0 0 0 0 0 0 0;
T (-28) 0 1 1 2 1 1 0 0 0 0 0 0 0 0 0;
T (-12) (-16) 0 0 0 0 1 0 0 (-9) 17 0 0 0 0 0;
T 28 0 1 1 4 (-2) 2 0 0 0 0 0 0 0 0 0;
T (-28) 0 4 0 2 (-4) 2 0 0 0 0 0 0 0 0 0;
T (-28) 0 0 2 0 2 0 0 0 0 0 0 0 0 0 0;
T 28 0 1 0 2 (-3) 0 0 0 0 0 0 0 0 0 0;
T 28 0 3 0 (-2) (-2) 0 0 0 0 0 0 0 0 0 0;
T 28 0 2 (-2) 0 0 0 0 0 0 0 0 0 0 0 0;
T 28 0 1 1 0 (-3) 0 0 0 0 0 0 0 0 0 0;
T 28 0 1 0 2 3 2 0 0 0 0 0 0 0 0 0;
T 28 0 1 0 0 (-2) 0 0 0 1 0 (-1) 0 0 0 0;
T (-28) 0 1 0 (-2) (-2) (-2) 0 (-3) 3 0 0 0 0 0 0;
T 28 0 0 0 2 (-2) 1 0 0 (-2) 0 3 0 0 0 0;
T 0 28 0 0 0 0 0 0 8 (-8) 0 0 0 0 0 (-1);
T 0 28 0 0 0 0 0 0 8 (-10) 0 0 0 0 0 (-1);
T 0 (-28) 0 0 0 0 0 0 4 (-2) 0 0 0 0 0 1;
T (-28) 0 0 0 0 0 0 0 3 (-4) 0 0 0 0 0 (-1);
T 28 0 0 0 0 0 0 0 3 (-6) 0 0 0 0 0 (-1);
T (-12) (-16) 0 0 0 0 0 0 1 (-4) 0 0 0 0 0 (-2);
T 0 28 0 0 0 0 0 0 0 6 0 0 0 0 0 1;
T 0 (-28) 0 0 0 0 0 0 0 6 (-7) 0 0 0 0 2;
T 12 (-16) 0 0 0 0 0 0 0 4 0 0 0 0 0 0;
T (-28) 0 0 0 0 0 0 0 0 4 0 0 (-2) 0 0 2;
T 0 (-28) 0 0 0 0 0 0 0 3 0 0 (-2) 0 0 2;
T 0 28 0 0 0 0 0 0 0 1 0 (-1) 0 0 0 1;
T 0 (-28) 0 0 0 0 0 0 0 1 (-6) 0 0 0 0 (-2);
T 28 0 0 0 0 0 0 0 0 0 0 4 (-5) 0 0 2;
T (-28) 0 0 0 0 0 0 0 0 0 0 0 0 2 0 2;
T (-28) 0 0 0 0 0 0 0 3 (-7) 4 0 0 0 0 0;
T 28 0 1 (-1) 2 (-2) 0 0 0 0 0 0 0 0 0 0;
T 28 0 1 1 2 (-4) 0 0 0 0 0 0 0 0 0 0;
T 12 (-16) 0 0 1 (-1) 1 0 0 (-1) 0 0 (-2) 0 0 0;
T 28 0 0 0 2 4 0 0 0 0 0 0 0 0 0 0;
T 28 0 2 (-1) (-2) 0 (-2) 0 0 0 0 0 0 0 0 0;
T (-28) 0 0 0 1 (-1) 2 0 0 0 (-2) 0 0 0 0 0;
T 0 (-28) 0 0 0 0 2 0 0 4 (-8) 3 0 0 0 0;
T 0 (-28) 0 0 0 0 2 0 0 (-4) 8 (-3) 0 0 0 0;
T 28 0 1 1 2 (-4) 2 0 0 0 0 0 0 0 0 0;
T 0 24 0 0 2 (-2) (-1) 0 (-5) 6 0 0 0 0 0 0;
T 24 0 1 (-2) 0 (-2) 1 0 0 0 0 0 0 0 0 0;
T (-24) 0 0 1 0 (-4) 1 0 0 0 0 0 0 0 0 0;
T (-24) 0 1 (-2) 2 0 1 0 0 0 0 0 0 0 0 0;
T 24 0 0 0 2 0 2 0 0 (-1) 0 1 0 0 0 0;
T (-24) 0 0 0 2 0 2 0 0 1 0 (-1) 0 0 0 0;
T (-24) 0 2 0 (-4) (-2) (-1) 0 0 0 0 0 0 0 0 0;
T 24 0 2 0 2 1 1 0 0 0 0 0 0 0 0 0;
T 24 0 2 0 (-2) (-6) (-1) 0 0 0 0 0 0 0 0 0;
T 0 (-24) 2 0 (-1) (-1) (-1) 0 0 (-1) 0 2 0 0 0 0;
T (-24) 0 4 (-1) 2 0 2 0 0 0 0 0 0 0 0 0;
T 12 (-12) 0 0 0 0 0 0 2 (-3) 0 0 0 0 0 1;
T 24 0 5 0 0 0 0 0 0 0 0 0 0 0 0 0;
T (-24) 0 3 0 0 (-3) 0 0 0 0 0 0 0 0 0 0;
T (-24) 0 2 2 0 (-4) 0 0 0 0 0 0 0 0 0 0;
T 24 0 2 2 (-2) (-4) (-2) 0 0 0 0 0 0 0 0 0;
T (-24) 0 2 1 2 1 2 0 0 0 0 0 0 0 0 0;
T (-24) 0 1 0 2 (-2) 2 0 0 (-2) 0 2 0 0 0 0;
T (-24) 0 1 0 0 0 0 0 0 (-2) 0 2 0 0 0 0;
T 24 0 1 0 0 (-2) 0 0 2 (-2) 0 0 0 0 0 0;
T 0 (-24) 1 0 (-1) 1 (-1) 0 (-18) 17 0 0 0 0 0 0;
T 24 0 0 2 (-2) (-4) (-2) 0 0 0 0 0 0 0 0 0;
T (-24) 0 0 1 2 3 2 0 0 0 0 0 0 0 0 0;
T 24 0 0 0 0 0 0 0 8 (-12) 0 0 0 0 0 (-2);
T 24 0 0 0 0 0 0 0 8 (-16) 0 0 0 0 0 (-2);
T 0 24 0 0 0 0 0 0 7 (-8) 0 0 0 0 0 0;
T 0 (-24) 0 0 0 0 0 0 0 5 (-6) 0 0 0 0 2;
T (-24) 0 0 0 0 0 0 0 0 4 (-6) 0 0 0 0 (-2);
T 0 24 0 0 0 0 0 0 0 4 (-8) 1 5 0 0 2;
T (-24) 0 0 0 0 0 0 0 0 2 0 (-2) 0 0 0 2;
T 0 (-24) 0 0 0 0 0 0 0 2 (-7) 0 0 0 0 (-2);
T 24 0 0 0 0 0 0 0 0 0 2 0 0 0 0 0;
T (-24) 0 0 0 0 0 0 0 0 0 0 0 5 0 0 2;
T (-24) 0 0 0 0 0 0 0 0 0 0 0 0 0 2 2;
T 24 0 0 1 0 3 0 0 0 0 0 0 0 0 0 0;
T 24 0 0 2 2 2 2 0 0 0 0 0 0 0 0 0;
T 24 0 2 (-1) 2 (-1) 2 0 0 0 0 0 0 0 0 0;
T 24 0 1 (-1) 2 2 0 0 0 0 0 0 0 0 0 0;
T 24 0 2 1 2 (-4) 1 0 0 0 0 0 0 0 0 0;
T (-24) 0 2 0 0 (-2) (-2) 0 (-3) 3 0 0 0 0 0 0;
T (-24) 0 1 (-1) 0 (-4) (-1) 0 0 0 0 0 0 0 0 0;
T 0 24 0 0 1 (-1) 2 0 0 (-1) 0 1 0 0 0 0;
T 0 (-24) 0 0 1 (-1) 2 0 0 (-1) 0 (-1) 0 0 0 0;
T 24 0 0 0 0 0 1 0 2 (-2) 0 0 0 0 0 0;
T 0 20 1 0 (-1) 0 1 0 0 0 0 0 0 0 0 0;
T 20 0 2 (-2) 0 (-2) 1 0 0 0 0 0 0 0 0 0;
T (-20) 0 0 0 1 (-1) 2 0 0 (-1) 0 0 1 0 0 0;
T 20 0 2 0 0 (-2) (-1) 0 (-3) 3 0 0 0 0 0 0;
T 20 0 1 (-2) 0 0 (-1) 0 0 0 0 0 0 0 0 0;
T 0 20 0 0 0 0 1 0 0 0 0 0 (-1) 0 0 0;
T (-20) 0 1 0 (-2) 1 1 0 0 0 0 0 0 0 0 0;
T 20 0 2 0 0 (-3) (-1) 0 0 0 0 0 0 0 0 0;
T 20 0 2 1 (-2) 0 1 0 0 0 0 0 0 0 0 0;
T 20 0 2 0 0 (-1) 1 0 0 0 0 0 0 0 0 0;
T 20 0 2 (-1) 2 (-2) 1 0 0 0 0 0 0 0 0 0;
T 20 0 1 (-1) (-4) 2 (-2) 0 0 0 0 0 0 0 0 0;
T (-20) 0 1 (-2) (-2) (-2) (-1) 0 0 0 0 0 0 0 0 0;
T 20 0 2 0 4 (-2) 1 0 0 0 0 0 0 0 0 0;
T 20 0 0 0 2 3 1 0 0 0 0 0 0 0 0 0;
T 20 0 0 1 4 (-2) 1 0 0 0 0 0 0 0 0 0;
T 20 0 1 0 (-2) 0 (-2) 0 (-10) 3 0 0 0 0 0 0;
T 0 20 1 0 1 (-2) 0 0 0 0 0 0 0 0 0 0;
T 20 0 1 (-1) 2 1 2 0 0 0 0 0 0 0 0 0;
T 20 0 4 1 2 0 2 0 0 0 0 0 0 0 0 0;
T 20 0 0 0 2 (-2) 1 0 0 (-1) 0 1 0 0 0 0;
T 20 0 1 0 0 (-1) 0 0 0 (-2) 2 0 0 0 0 0;
T (-20) 0 0 0 2 (-2) 0 0 0 (-2) 0 2 0 0 0 0;
T 0 (-20) 1 0 0 0 0 0 0 4 (-8) 3 0 0 0 0;
T (-20) 0 4 (-1) (-2) (-2) (-2) 0 0 0 0 0 0 0 0 0;
T 20 0 2 1 (-2) (-6) (-2) 0 0 0 0 0 0 0 0 0;
T (-20) 0 2 0 0 (-2) 0 0 0 (-4) 8 (-3) 0 0 0 0;
T 20 0 2 0 0 (-2) 0 0 (-2) 2 0 0 0 0 0 0;
T 20 0 2 0 0 (-2) (-1) 0 0 (-2) 0 4 (-5) 0 0 0;
T 0 (-20) 2 0 (-1) (-1) (-1) 0 0 (-1) 0 0 0 0 0 0;
T (-20) 0 1 1 (-2) (-3) (-2) 0 0 0 0 0 0 0 0 0;
T 0 (-20) 1 0 3 0 3 0 0 0 0 0 0 0 0 0;
T 0 20 1 0 1 (-1) 1 0 0 (-1) 0 0 0 0 0 0;
T 0 (-20) 1 0 0 0 0 0 0 (-4) 8 (-3) 0 0 0 0;
T 20 0 1 0 0 0 0 0 (-1) 1 0 0 0 0 0 0;
T 0 20 1 0 0 (-2) 0 0 17 (-16) 0 (-2) 0 0 0 0;
T (-20) 0 1 0 (-1) (-1) (-1) 0 20 (-20) 0 0 0 0 0 0;
T 20 0 1 0 (-2) (-2) (-2) 0 0 (-2) 0 3 0 0 0 0;
T 20 0 0 3 (-2) (-2) (-2) 0 0 0 0 0 0 0 0 0;
T 0 20 0 0 1 (-1) 1 0 1 (-2) 0 0 0 0 0 0;
T 0 20 0 0 1 (-1) 1 0 (-2) 1 0 0 0 0 0 0;
T (-20) 0 0 0 1 (-1) 0 0 0 0 0 0 0 0 0 0;
T 0 20 0 0 0 0 0 0 9 (-9) 0 0 0 0 0 (-1);
T 0 20 0 0 0 0 0 0 9 (-11) 0 0 0 0 0 (-1);
T 0 20 0 0 0 0 0 0 6 (-10) 0 0 0 0 0 (-1);
T 0 (-20) 0 0 0 0 0 0 5 (-3) 0 0 0 0 0 1;
T (-20) 0 0 0 0 0 0 0 4 (-5) 0 0 0 0 0 (-1);
T 0 (-20) 0 0 0 0 0 0 3 (-4) 0 0 0 0 0 (-2);
T 0 (-20) 0 0 0 0 0 0 0 6 (-9) 0 0 0 0 0;
T 0 (-20) 0 0 0 0 0 0 0 5 (-10) 0 0 0 0 (-2);
T (-20) 0 0 0 0 0 0 0 0 4 0 (-4) 0 0 0 2;
T 20 0 0 0 0 0 0 0 0 3 0 (-4) 0 0 0 0;
T (-20) 0 0 0 0 0 0 0 0 2 0 0 0 0 0 0;
T (-20) 0 0 0 0 0 0 0 0 2 0 (-5) 0 0 0 (-2);
T 0 20 0 0 0 0 0 0 0 1 0 (-2) 5 0 0 2;
T 20 0 0 0 0 0 0 0 0 1 0 (-2) 0 0 0 (-2);
T 0 (-20) 0 0 0 0 0 0 0 1 0 (-3) 0 0 0 (-1);
T (-20) 0 0 0 0 0 0 0 0 1 0 (-5) 0 0 0 (-2);
T 0 (-20) 0 0 0 0 0 0 0 0 0 0 0 2 0 1;
T 0 20 0 0 0 0 0 0 0 0 0 0 0 1 (-2) (-2);
T (-20) 0 0 2 0 (-4) 0 0 0 0 0 0 0 0 0 0;
T 20 0 0 0 0 6 0 0 0 0 0 0 0 0 0 0;
T (-20) 0 3 0 0 (-2) 0 0 0 0 0 0 0 0 0 0;
T 20 0 2 (-1) (-2) 2 (-1) 0 0 0 0 0 0 0 0 0;
T 0 (-20) 1 0 (-1) 1 (-1) 0 0 1 0 0 0 0 0 0;
T (-20) 0 0 0 2 (-4) 0 0 0 0 0 0 0 0 0 0;
T (-20) 0 1 0 0 (-1) (-1) 0 0 (-2) 2 0 0 0 0 0;
T 20 0 0 1 0 4 1 0 0 0 0 0 0 0 0 0;
T 20 0 1 0 0 (-6) (-1) 0 0 0 0 0 0 0 0 0;
T 0 20 0 0 0 0 1 0 5 (-8) 0 0 0 0 0 0;
T 20 0 0 0 4 2 2 0 0 0 0 0 0 0 0 0;
T 20 0 3 0 0 (-2) 1 0 0 0 0 0 0 0 0 0;
T (-20) 0 0 0 2 (-2) 2 0 0 (-2) 0 2 0 0 0 0;
T (-20) 0 1 (-1) 0 (-2) (-2) 0 0 0 0 0 0 0 0 0;
T (-20) 0 0 0 1 (-1) 2 0 (-5) 7 0 0 0 0 0 0;
T (-20) 0 2 1 0 (-2) (-2) 0 0 0 0 0 0 0 0 0;
T 20 0 0 0 0 0 1 0 0 2 (-2) 0 0 0 0 0;
T (-20) 0 1 0 (-2) 0 2 0 0 0 0 0 0 0 0 0;
T (-20) 0 1 (-1) 0 0 (-2) 0 0 0 0 0 0 0 0 0;
T 20 0 1 1 (-2) 2 (-2) 0 0 0 0 0 0 0 0 0;
T 16 0 0 0 0 0 1 0 (-2) 2 0 0 0 0 0 0;
T 16 0 1 0 0 (-3) (-1) 0 0 0 0 0 0 0 0 0;
T 0 (-16) 0 0 1 (-1) (-1) 0 0 (-1) 0 (-1) 0 0 0 0;
T 16 0 2 0 (-2) (-2) 1 0 0 0 0 0 0 0 0 0;
T 16 0 1 0 0 (-1) 1 0 0 (-1) 0 1 0 0 0 0;
T 16 0 2 0 0 (-3) 1 0 0 0 0 0 0 0 0 0;
T 16 0 3 0 0 2 (-1) 0 0 0 0 0 0 0 0 0;
T 16 0 1 1 0 1 1 0 0 0 0 0 0 0 0 0;
T (-16) 0 0 2 0 0 (-2) 0 0 0 0 0 0 0 0 0;
T 16 0 2 (-1) 0 2 (-1) 0 0 0 0 0 0 0 0 0;
T 16 0 1 1 0 1 (-1) 0 0 0 0 0 0 0 0 0;
T (-16) 0 1 0 (-4) (-2) (-1) 0 0 0 0 0 0 0 0 0;
T (-16) 0 1 (-1) (-2) (-4) (-1) 0 0 0 0 0 0 0 0 0;
T (-16) 0 1 (-2) 2 2 1 0 0 0 0 0 0 0 0 0;
T 16 0 3 1 2 (-2) 1 0 0 0 0 0 0 0 0 0;
T 16 0 1 0 (-2) (-6) (-1) 0 0 0 0 0 0 0 0 0;
T (-16) 0 2 0 4 (-4) 2 0 0 0 0 0 0 0 0 0;
T (-4) 12 2 (-2) 2 (-2) 2 0 0 0 0 0 0 0 0 0;
T 16 0 3 0 4 (-2) 2 0 0 0 0 0 0 0 0 0;
T 0 16 0 0 1 (-1) 0 0 3 (-6) 0 0 0 0 0 0;
T 16 0 1 1 2 4 2 0 0 0 0 0 0 0 0 0;
T 16 0 0 0 2 (-3) 0 0 0 0 0 0 0 0 0 0;
T 0 (-16) 0 0 1 1 0 0 0 1 0 0 0 0 0 0;
T 0 (-16) 0 0 1 (-1) 0 0 (-4) 5 0 0 0 0 0 0;
T 0 16 0 0 1 (-1) 0 0 0 (-2) 2 0 0 0 0 0;
T 16 0 0 0 1 (-1) 0 0 0 (-1) 0 0 1 0 0 0;
T 0 16 0 0 1 (-1) 0 0 0 (-1) 0 1 0 0 0 0;
T (-16) 0 0 1 (-2) 4 (-1) 0 0 0 0 0 0 0 0 0;
T 0 (-16) 1 0 0 (-2) 0 0 0 4 (-8) 3 0 0 0 0;
T 16 0 3 0 2 1 2 0 0 0 0 0 0 0 0 0;
T 16 0 3 0 0 (-1) 0 0 0 0 0 0 0 0 0 0;
T 16 0 2 1 0 1 0 0 0 0 0 0 0 0 0 0;
T 16 0 2 0 2 0 1 0 0 1 0 0 0 0 0 0;
T (-16) 0 2 0 0 (-2) 0 0 0 (-2) 0 2 2 0 0 0;
T 16 0 2 0 0 (-2) 0 0 0 (-4) 4 0 0 0 0 0;
T (-16) 0 2 (-2) 2 2 2 0 0 0 0 0 0 0 0 0;
T 16 0 1 1 (-2) (-6) (-2) 0 0 0 0 0 0 0 0 0;
T (-16) 0 1 0 0 0 0 0 1 (-1) 0 0 0 0 0 0;
T (-16) 0 1 0 0 0 0 0 0 (-1) 0 1 0 0 0 0;
T (-16) 0 1 0 0 0 0 0 (-3) 3 0 0 0 0 0 0;
T (-16) 0 1 0 0 (-2) 0 0 1 (-1) 0 0 0 0 0 0;
T 0 (-16) 1 0 0 (-2) 0 0 0 (-4) 8 (-3) 0 0 0 0;
T (-16) 0 1 0 0 (-2) 0 0 (-2) 2 0 0 0 0 0 0;
T (-16) 0 0 0 2 (-2) 1 0 0 1 0 (-1) 0 0 0 0;
T 16 0 0 0 2 (-2) 1 0 0 (-3) 0 3 0 0 0 0;
T 16 0 0 0 2 (-2) 1 0 (-5) 5 0 0 0 0 0 0;
T (-16) 0 0 0 1 (-1) 1 0 1 (-3) 0 0 0 0 0 0;
T 0 16 0 0 1 (-1) 1 0 0 (-1) 0 0 0 (-1) 0 0;
T 16 0 0 0 1 (-1) 1 0 0 (-4) 6 0 0 0 0 0;
T 0 16 0 0 1 (-1) 1 0 (-5) 6 0 0 0 0 0 0;
T (-16) 0 0 0 0 2 0 0 0 (-1) 0 1 0 0 0 0;
T 0 16 0 0 0 0 0 0 8 (-9) 0 0 0 0 0 0;
T (-16) 0 0 0 0 0 0 0 7 (-10) 0 0 0 0 0 (-1);
T 0 (-16) 0 0 0 0 0 0 5 (-5) 0 0 0 0 0 1;
T 0 (-16) 0 0 0 0 0 0 4 (-5) 0 0 0 0 0 (-2);
T 0 (-16) 0 0 0 0 0 0 3 (-6) 0 0 0 0 0 0;
T 0 16 0 0 0 0 0 0 3 (-8) 0 0 0 0 0 (-2);
T 16 0 0 0 0 0 0 0 2 (-5) 0 0 0 0 0 (-1);
T (-16) 0 0 0 0 0 0 0 1 1 0 0 0 0 0 0;
T 16 0 0 0 0 0 0 0 1 (-2) 0 0 0 0 0 (-1);
T 0 (-16) 0 0 0 0 0 0 0 7 (-8) 0 0 0 0 2;
T 0 (-16) 0 0 0 0 0 0 0 7 (-9) 0 0 0 0 2;
T 0 16 0 0 0 0 0 0 0 6 (-10) 0 0 0 0 (-2);
T 0 16 0 0 0 0 0 0 0 3 0 0 0 0 0 2;
T 16 0 0 0 0 0 0 0 0 3 (-8) 3 0 0 0 (-2);
T 0 16 0 0 0 0 0 0 0 2 0 0 (-2) 0 0 1;
T 16 0 0 0 0 0 0 0 0 2 (-4) 0 0 0 0 1;
T 16 0 0 0 0 0 0 0 0 1 0 0 0 0 0 (-1);
T 0 (-16) 0 0 0 0 0 0 0 1 0 (-1) 0 0 0 (-1);
T 0 (-16) 0 0 0 0 0 0 0 0 0 3 (-5) 0 0 0;
T (-16) 0 0 0 0 0 0 0 0 0 0 2 (-2) 0 0 0;
T (-16) 0 2 1 0 (-6) 0 0 0 0 0 0 0 0 0 0;
T (-16) 0 1 (-1) 0 1 0 0 0 0 0 0 0 0 0 0;
T 0 (-16) 0 0 1 (-1) 0 0 (-3) 4 0 0 0 0 0 0;
T 16 0 3 (-1) 0 2 0 0 0 0 0 0 0 0 0 0;
T 16 0 4 0 0 2 0 0 0 0 0 0 0 0 0 0;
T (-16) 0 0 0 2 (-2) 0 0 (-4) 4 0 0 0 0 0 0;
T 16 0 1 0 2 (-1) 0 0 0 0 0 0 0 0 0 0;
T 16 0 1 (-2) (-2) 2 (-1) 0 0 0 0 0 0 0 0 0;
T 16 0 1 (-1) (-2) (-2) 0 0 0 0 0 0 0 0 0 0;
T (-16) 0 2 0 2 (-3) 2 0 0 0 0 0 0 0 0 0;
T (-16) 0 0 1 2 2 0 0 0 0 0 0 0 0 0 0;
T 0 16 0 0 2 (-2) 1 0 0 (-4) 8 (-3) 0 0 0 0;
T 0 16 0 0 2 (-2) 1 0 0 4 (-8) 3 0 0 0 0;
T 16 0 3 0 (-2) 2 (-1) 0 0 0 0 0 0 0 0 0;
T 16 0 2 (-1) 2 0 0 0 0 0 0 0 0 0 0 0;
T (-16) 0 2 0 0 4 1 0 0 0 0 0 0 0 0 0;
T 16 0 2 0 (-4) 2 (-1) 0 0 0 0 0 0 0 0 0;
T (-16) 0 2 (-1) 0 2 1 0 0 0 0 0 0 0 0 0;
T (-16) 0 2 (-2) 0 (-2) (-2) 0 0 0 0 0 0 0 0 0;
T 0 (-16) 0 0 0 0 1 0 0 1 0 (-2) 0 0 0 0;
T (-16) 0 3 0 0 0 2 0 0 0 0 0 0 0 0 0;
T 0 (-16) 0 0 0 0 1 0 3 (-4) 0 0 0 0 0 0;
T 16 0 0 2 0 0 2 0 0 0 0 0 0 0 0 0;
T 16 0 0 1 2 (-4) 2 0 0 0 0 0 0 0 0 0;
T (-15) 0 0 0 1 (-1) 2 0 (-8) 12 0 0 0 0 0 0;
T 0 12 0 0 0 0 1 0 0 (-1) 0 2 0 0 0 0;
T 12 0 0 0 0 0 1 0 0 (-2) 2 0 0 0 0 0;
T 0 12 0 0 0 0 1 0 (-3) 4 0 0 0 0 0 0;
T 12 0 1 0 0 0 (-1) 0 (-10) 3 0 0 0 0 0 0;
T 12 0 1 0 0 0 1 0 (-10) 3 0 0 0 0 0 0;
T 0 (-12) 0 0 0 0 2 0 0 0 0 1 0 0 0 0;
T (-12) 0 0 1 4 (-4) 2 0 0 0 0 0 0 0 0 0;
T (-12) 0 2 0 2 (-2) (-1) 0 0 0 0 0 0 0 0 0;
T 12 0 1 0 2 (-4) (-1) 0 0 0 0 0 0 0 0 0;
T (-12) 0 1 2 0 0 1 0 0 0 0 0 0 0 0 0;
T 0 12 2 0 0 (-2) (-1) 0 0 (-6) 8 0 0 0 0 0;
T 12 0 2 (-1) (-2) 0 1 0 0 0 0 0 0 0 0 0;
T 12 0 2 0 0 (-2) 1 0 0 (-5) 6 0 0 0 0 0;
T 12 0 1 0 0 (-2) (-1) 0 0 (-2) 0 2 0 0 0 0;
T 12 0 2 0 (-1) (-1) 1 0 0 3 (-7) 0 0 0 0 0;
T 12 0 1 0 0 (-2) 1 0 0 (-2) 0 2 0 0 0 0;
T 12 0 1 0 0 (-1) (-1) 0 0 (-3) 4 0 0 0 0 0;
T 12 0 0 0 0 3 2 0 0 0 0 0 0 0 0 0;
T 12 0 2 2 0 (-2) (-1) 0 0 0 0 0 0 0 0 0;
T 12 0 1 (-1) 2 (-3) 1 0 0 0 0 0 0 0 0 0;
T 12 0 1 0 4 0 1 0 0 0 0 0 0 0 0 0;
T (-12) 0 2 0 0 (-2) (-1) 0 0 (-2) 0 3 (-1) 0 0 0;
T 12 0 2 (-1) (-2) (-2) (-1) 0 0 0 0 0 0 0 0 0;
T 12 0 2 1 2 2 1 0 0 0 0 0 0 0 0 0;
T 0 12 0 0 2 0 2 0 2 (-3) 0 0 0 0 0 0;
T 0 12 0 0 2 0 2 0 (-2) 3 0 0 0 0 0 0;
T (-12) 0 0 0 2 0 2 0 2 (-2) 0 0 0 0 0 0;
T 12 0 0 0 2 0 2 0 (-2) 2 0 0 0 0 0 0;
T (-12) 0 5 0 2 0 1 0 0 0 0 0 0 0 0 0;
T 12 0 3 0 (-2) (-6) (-1) 0 0 0 0 0 0 0 0 0;
T 12 0 1 2 2 0 1 0 0 0 0 0 0 0 0 0;
T (-12) 0 1 (-1) 2 4 1 0 0 0 0 0 0 0 0 0;
T 12 0 2 0 (-2) (-2) (-2) 0 0 (-2) 0 2 0 0 0 0;
T (-12) 0 2 0 2 4 1 0 0 0 0 0 0 0 0 0;
T 0 12 0 0 2 (-2) 1 0 (-8) 11 0 0 0 0 0 0;
T 0 12 1 0 2 0 2 0 0 (-4) 8 (-3) 0 0 0 0;
T 0 12 1 0 2 0 2 0 0 4 (-8) 3 0 0 0 0;
T (-12) 0 1 (-2) 0 (-1) 0 0 0 0 0 0 0 0 0 0;
T 12 0 2 0 2 (-2) 2 0 0 (-2) 0 3 0 0 0 0;
T 12 0 1 0 2 0 2 0 1 (-1) 0 0 0 0 0 0;
T (-12) 0 1 0 2 0 2 0 (-1) 1 0 0 0 0 0 0;
T 0 (-12) 0 0 2 (-2) 0 (-1) 0 2 0 0 0 0 0 0;
T (-12) 0 4 0 (-2) (-2) 0 0 0 0 0 0 0 0 0 0;
T (-12) 0 1 0 2 (-6) 1 0 0 0 0 0 0 0 0 0;
T 12 0 0 1 (-4) 2 (-1) 0 0 0 0 0 0 0 0 0;
T 0 12 0 0 1 (-1) 0 0 0 (-1) 0 0 (-2) 0 0 0;
T 12 0 1 (-1) (-2) 1 (-1) 0 0 0 0 0 0 0 0 0;
T 0 12 0 0 1 (-1) 0 0 0 1 0 0 0 0 0 0;
T 0 12 2 0 (-1) (-1) 0 0 0 (-1) 0 3 0 0 0 0;
T 0 (-12) 0 0 1 (-1) 0 0 (-1) 0 0 0 0 0 0 0;
T 12 0 4 1 2 (-2) 2 0 0 0 0 0 0 0 0 0;
T 12 0 3 1 2 2 2 0 0 0 0 0 0 0 0 0;
T (-12) 0 3 1 0 (-2) 0 0 0 0 0 0 0 0 0 0;
T 12 0 3 1 (-2) (-6) (-2) 0 0 0 0 0 0 0 0 0;
T (-12) 0 3 (-1) 0 (-2) 0 0 0 0 0 0 0 0 0 0;
T (-12) 0 3 (-1) 0 (-3) 0 0 0 0 0 0 0 0 0 0;
T 12 0 2 1 0 (-3) 0 0 0 0 0 0 0 0 0 0;
T 0 12 2 0 1 (-3) 1 0 (-6) 7 0 0 0 0 0 0;
T 0 (-12) 2 0 0 (-2) 0 0 2 (-5) 0 0 0 0 0 0;
T 0 12 2 0 0 (-2) 0 0 0 (-2) 0 5 (-5) 0 0 0;
T 12 0 2 0 0 (-2) 0 0 0 (-2) 0 1 5 0 0 0;
T 12 0 2 0 0 (-2) 0 0 0 (-2) 0 0 2 0 0 0;
T 12 0 2 0 0 (-2) 0 0 (-4) 4 0 0 0 0 0 0;
T 0 12 2 0 (-2) 0 (-2) 0 0 5 (-9) 0 0 0 0 0;
T (-12) 0 2 0 (-2) (-5) (-2) 0 0 0 0 0 0 0 0 0;
T (-12) 0 2 (-1) 2 4 2 0 0 0 0 0 0 0 0 0;
T 12 0 1 3 (-2) (-2) (-2) 0 0 0 0 0 0 0 0 0;
T (-12) 0 1 1 (-2) (-1) (-2) 0 0 0 0 0 0 0 0 0;
T (-12) 0 1 0 2 (-2) 2 0 (-3) 3 0 0 0 0 0 0;
T 0 12 1 0 1 1 1 0 0 1 0 0 0 0 0 0;
T 12 0 1 0 0 0 0 0 0 1 0 (-1) 0 0 0 0;
T 12 0 1 0 0 0 0 0 0 (-2) 0 3 0 0 0 0;
T (-12) 0 1 0 0 (-2) 0 0 0 2 0 (-2) 0 0 0 0;
T 12 0 1 0 (-1) 0 (-1) 0 (-3) 5 0 0 0 0 0 0;
T (-12) 0 1 0 (-1) (-1) 0 0 0 8 (-15) 0 0 0 0 0;
T 0 (-12) 1 0 (-1) (-2) (-1) 0 0 0 0 0 0 0 0 0;
T (-12) 0 1 0 (-2) (-2) (-2) 0 0 1 0 (-1) 0 0 0 0;
T 12 0 0 0 2 2 2 0 0 2 0 (-2) 0 0 0 0;
T (-12) 0 0 0 2 (-2) 1 0 0 (-2) 0 1 0 0 0 0;
T (-12) 0 0 0 2 (-2) 1 0 0 (-2) 0 0 0 0 0 0;
T 12 0 0 0 2 (-2) 1 0 0 (-4) 4 0 0 0 0 0;
T 0 12 0 0 2 (-2) 1 0 0 (-7) 9 0 0 0 0 0;
T (-12) 0 0 0 2 (-2) 1 0 0 (-10) 15 0 0 0 0 0;
T 12 0 0 0 1 (-1) 1 0 0 1 (-4) 0 0 0 0 0;
T 0 12 0 0 1 (-1) 1 0 0 (-1) 0 1 (-3) 0 0 0;
T 0 12 0 0 1 (-1) 1 0 (-1) 2 0 0 0 0 0 0;
T 12 0 0 0 1 (-1) 1 0 (-4) 6 0 0 0 0 0 0;
T (-12) 0 0 0 0 2 0 0 0 2 0 (-2) 0 0 0 0;
T (-12) 0 0 0 0 2 0 0 (-2) 2 0 0 0 0 0 0;
T 12 0 0 0 0 0 0 0 9 (-13) 0 0 0 0 0 (-2);
T (-12) 0 0 0 0 0 0 0 8 (-11) 0 0 0 0 0 (-1);
T 12 0 0 0 0 0 0 0 8 (-14) 0 0 0 0 0 (-2);
T 0 (-12) 0 0 0 0 0 0 7 (-11) 0 0 0 0 0 (-1);
T 0 (-12) 0 0 0 0 0 0 6 (-4) 0 0 0 0 0 1;
T 0 (-12) 0 0 0 0 0 0 6 (-6) 0 0 0 0 0 1;
T (-12) 0 0 0 0 0 0 0 6 (-7) 0 0 0 0 0 (-1);
T (-12) 0 0 0 0 0 0 0 6 (-8) 0 0 0 0 0 0;
T 0 (-12) 0 0 0 0 0 0 6 (-9) 0 0 0 0 0 0;
T 0 12 0 0 0 0 0 0 5 (-4) 0 0 0 0 0 2;
T (-12) 0 0 0 0 0 0 0 5 (-6) 0 0 0 0 0 (-1);
T 0 (-12) 0 0 0 0 0 0 5 (-6) 0 0 0 0 0 (-2);
T (-12) 0 0 0 0 0 0 0 5 (-6) (-4) 0 0 0 0 (-2);
T 0 12 0 0 0 0 0 0 4 (-2) 0 0 0 0 0 0;
T 0 (-12) 0 0 0 0 0 0 4 (-5) 0 0 0 0 0 0;
T 12 0 0 0 0 0 0 0 4 (-8) 0 0 0 0 0 (-2);
T (-12) 0 0 0 0 0 0 0 3 (-1) 0 0 0 0 0 0;
T (-12) 0 0 0 0 0 0 0 3 (-3) 0 2 0 0 0 2;
T 12 0 0 0 0 0 0 0 3 (-4) 0 0 0 0 0 1;
T 0 12 0 0 0 0 0 0 2 1 0 0 0 0 0 1;
T (-12) 0 0 0 0 0 0 0 2 0 0 0 0 0 0 0;
T 12 0 0 0 0 0 0 0 1 (-1) 0 0 0 0 0 (-2);
T 12 0 0 0 0 0 0 0 1 (-4) 0 0 0 0 0 (-1);
T (-12) 0 0 0 0 0 0 0 0 9 (-17) 0 0 0 0 (-2);
T 0 12 0 0 0 0 0 0 0 7 (-7) 0 0 0 0 2;
T 0 12 0 0 0 0 0 0 0 7 (-12) 0 0 0 0 (-2);
T (-12) 0 0 0 0 0 0 0 0 6 (-4) 0 0 0 0 2;
T 0 (-12) 0 0 0 0 0 0 0 6 (-8) 1 5 0 0 2;
T (-12) 0 0 0 0 0 0 0 0 6 (-9) 0 0 0 0 (-2);
T 0 12 0 0 0 0 0 0 0 6 (-10) 0 0 0 0 0;
T (-12) 0 0 0 0 0 0 0 0 5 0 (-4) 0 0 0 2;
T 12 0 0 0 0 0 0 0 0 5 (-6) 0 0 0 0 0;
T (-12) 0 0 0 0 0 0 0 0 5 (-7) 0 0 0 0 (-2);
T (-12) 0 0 0 0 0 0 0 0 5 (-8) 3 0 0 0 2;
T (-12) 0 0 0 0 0 0 0 0 5 (-9) 0 0 0 0 (-1);
T (-12) 0 0 0 0 0 0 0 0 5 (-13) 0 0 0 0 (-2);
T 12 0 0 0 0 0 0 0 0 5 (-16) 4 5 0 0 (-2);
T (-12) 0 0 0 0 0 0 0 0 4 (-7) 0 0 0 0 (-1);
T 12 0 0 0 0 0 0 0 0 4 (-8) 3 0 0 0 1;
T 12 0 0 0 0 0 0 0 0 4 (-8) 3 0 0 0 (-1);
T (-12) 0 0 0 0 0 0 0 0 3 0 (-5) 0 0 0 (-2);
T 0 (-12) 0 0 0 0 0 0 0 3 (-5) 0 0 0 0 (-1);
T 0 (-12) 0 0 0 0 0 0 0 3 (-7) 0 0 0 0 (-2);
T 0 (-12) 0 0 0 0 0 0 0 3 (-9) 0 0 0 0 (-2);
T 12 0 0 0 0 0 0 0 0 2 1 0 0 0 0 2;
T 12 0 0 0 0 0 0 0 0 2 0 2 0 0 0 2;
T 0 12 0 0 0 0 0 0 0 2 0 0 (-3) 0 0 0;
T 0 (-12) 0 0 0 0 0 0 0 2 (-8) 1 5 0 0 (-2);
T 0 12 0 0 0 0 0 0 0 1 0 1 0 0 0 1;
T (-12) 0 0 0 0 0 0 0 0 1 0 1 (-5) 0 0 0;
T 0 (-12) 0 0 0 0 0 0 0 1 0 0 2 0 0 2;
T (-12) 0 0 0 0 0 0 0 0 1 0 0 (-3) 0 0 0;
T 12 0 0 0 0 0 0 0 0 1 0 (-3) 5 0 0 0;
T 0 12 0 0 0 0 0 0 0 1 (-3) 0 0 0 0 0;
T 12 0 0 0 0 0 0 0 0 0 0 2 (-6) 3 0 (-2);
T 0 12 0 0 0 0 0 0 0 0 0 1 (-2) 0 0 0;
T 0 12 0 0 0 0 0 0 0 0 0 0 0 1 0 0;
T 12 0 0 0 0 0 0 0 0 0 0 0 0 0 0 2;
T 8 4 0 0 0 0 0 0 0 0 1 0 0 0 0 0;
T (-12) 0 1 1 0 (-6) 0 0 0 0 0 0 0 0 0 0;
T (-12) 0 1 0 0 3 0 0 0 0 0 0 0 0 0 0;
T 12 0 2 0 0 (-2) 0 0 0 (-2) 0 0 5 0 0 0;
T (-12) 0 3 0 (-2) (-1) (-1) 0 0 0 0 0 0 0 0 0;
T (-12) 0 1 2 2 (-4) 1 0 0 0 0 0 0 0 0 0;
T (-12) 0 0 0 1 (-1) 0 0 (-2) 2 0 0 0 0 0 0;
T 0 12 1 0 (-1) 1 0 0 0 1 0 0 0 0 0 0;
T 12 0 0 0 2 (-2) 1 0 1 (-1) 0 0 0 0 0 0;
T (-12) 0 2 0 2 (-6) 1 0 0 0 0 0 0 0 0 0;
T (-12) 0 2 1 2 (-2) 0 0 0 0 0 0 0 0 0 0;
T (-12) 0 2 1 2 0 0 0 0 0 0 0 0 0 0 0;
T (-12) 0 1 0 2 1 0 0 0 0 0 0 0 0 0 0;
T 12 0 4 0 (-2) 0 (-1) 0 0 0 0 0 0 0 0 0;
T (-12) 0 0 0 0 0 1 0 0 7 (-13) 0 0 0 0 0;
T 12 0 2 1 0 2 1 0 0 0 0 0 0 0 0 0;
T (-12) 0 1 (-1) 0 4 1 0 0 0 0 0 0 0 0 0;
T (-12) 0 3 0 (-2) (-4) (-2) 0 0 0 0 0 0 0 0 0;
T 12 0 2 0 0 (-6) (-1) 0 0 0 0 0 0 0 0 0;
T 12 0 0 0 1 (-1) (-1) 0 (-5) 7 0 0 0 0 0 0;
T 12 0 0 0 0 0 2 0 (-3) 5 0 0 0 0 0 0;
T 0 (-12) 0 0 1 1 2 0 0 1 0 0 0 0 0 0;
T 0 (-12) 0 0 1 (-1) 2 0 (-3) 4 0 0 0 0 0 0;
T 0 12 0 0 0 0 1 0 (-1) 2 0 0 0 0 0 0;
T 12 0 2 (-1) 0 (-2) 2 0 0 0 0 0 0 0 0 0;
T 12 0 1 1 (-2) 1 (-2) 0 0 0 0 0 0 0 0 0;
T 12 0 2 1 (-2) 0 (-2) 0 0 0 0 0 0 0 0 0;
T (-12) 0 0 0 1 (-1) 2 0 0 (-1) 0 0 (-1) 0 0 0;
T (-12) 0 2 1 2 (-4) 2 0 0 0 0 0 0 0 0 0;
T 12 0 2 0 0 (-4) 2 0 0 0 0 0 0 0 0 0;
T (-12) 0 3 0 0 0 (-2) 0 0 0 0 0 0 0 0 0;
T 12 0 1 0 0 (-4) 2 0 0 0 0 0 0 0 0 0;
T 12 0 2 0 0 (-4) (-2) 0 0 0 0 0 0 0 0 0;
T 12 0 1 1 0 0 (-2) 0 0 0 0 0 0 0 0 0;
T (-12) 0 0 0 0 0 1 0 0 2 0 (-2) 0 0 0 0;
T (-12) 0 1 0 (-2) 4 (-2) 0 0 0 0 0 0 0 0 0;
T 11 0 0 0 4 (-4) 4 0 0 0 0 0 0 0 0 0].

(** tables52ab.py:1320-1572 *)
Definition xj1 : list row := [
T (-330973) 20583311 0 0 0 0 1 0 0 0 0 0 0 0 0 0;
T 19897 1281401 0 0 2 (-2) 2 0 0 0 0 0 0 0 0 0;
T 4144 218791 0 0 2 0 2 0 0 0 0 0 0 0 0 0;
T (-3607) (-200436) 0 0 0 0 2 0 0 0 0 0 0 0 0 0;
T 5920 50182 0 1 2 (-2) 2 0 0 0 0 0 0 0 0 0;
T (-577) 44876 0 0 2 0 1 0 0 0 0 0 0 0 0 0;
T (-17973) 16433 0 1 0 0 0 0 0 0 0 0 0 0 0 0;
T 570 28849 1 0 2 0 2 0 0 0 0 0 0 0 0 0;
T 2387 (-21450) 0 1 (-2) 2 (-2) 0 0 0 0 0 0 0 0 0;
T 286 (-15491) 0 0 2 (-2) 1 0 0 0 0 0 0 0 0 0;
T 216 (-11921) 1 0 (-2) 0 (-2) 0 0 0 0 0 0 0 0 0;
T 116 (-7433) 1 0 0 0 1 0 0 0 0 0 0 0 0 0;
T 146 7031 1 0 0 0 (-1) 0 0 0 0 0 0 0 0 0;
T (-42) 5894 1 0 2 0 1 0 0 0 0 0 0 0 0 0;
T (-96) 5712 1 0 (-2) (-2) (-2) 0 0 0 0 0 0 0 0 0;
T (-107) (-5419) 2 0 (-2) 0 (-1) 0 0 0 0 0 0 0 0 0;
T 92 3678 0 0 2 2 2 0 0 0 0 0 0 0 0 0;
T 68 (-3101) 0 2 (-2) 2 (-2) 0 0 0 0 0 0 0 0 0;
T 74 2960 2 0 2 0 2 0 0 0 0 0 0 0 0 0;
T (-61) (-2759) 1 0 2 (-2) 2 0 0 0 0 0 0 0 0 0;
T (-1119) (-1507) 1 0 0 0 0 0 0 0 0 0 0 0 0 0;
T (-40) (-2405) 1 0 (-2) 0 (-1) 0 0 0 0 0 0 0 0 0;
T (-81) 1906 0 1 0 0 1 0 0 0 0 0 0 0 0 0;
T 318 1532 0 2 2 (-2) 2 0 0 0 0 0 0 0 0 0;
T (-8) (-1790) 1 0 0 (-2) (-1) 0 0 0 0 0 0 0 0 0;
T (-16) 1555 1 0 0 (-2) 1 0 0 0 0 0 0 0 0 0;
T (-77) 1440 0 1 0 0 (-1) 0 0 0 0 0 0 0 0 0;
T (-25) 1167 1 0 (-2) (-2) (-1) 0 0 0 0 0 0 0 0 0;
T 618 358 0 0 1 (-1) 1 0 0 (-1) 0 (-2) 5 0 0 0;
T (-101) (-727) 0 1 2 0 2 0 0 0 0 0 0 0 0 0;
T (-99) 687 0 1 (-2) 0 (-2) 0 0 0 0 0 0 0 0 0;
T (-27) 749 0 0 2 2 1 0 0 0 0 0 0 0 0 0;
T (-30) 731 0 0 0 2 1 0 0 0 0 0 0 0 0 0;
T 20 730 1 0 2 2 2 0 0 0 0 0 0 0 0 0;
T 33 680 2 0 0 (-2) (-1) 0 0 0 0 0 0 0 0 0;
T 27 (-681) 1 0 2 (-2) 1 0 0 0 0 0 0 0 0 0;
T 35 608 0 0 0 2 (-1) 0 0 0 0 0 0 0 0 0;
T 34 609 0 1 (-2) 2 (-1) 0 0 0 0 0 0 0 0 0;
T (-14) (-619) 2 0 2 (-2) 2 0 0 0 0 0 0 0 0 0;
T 14 602 2 0 2 0 1 0 0 0 0 0 0 0 0 0;
T 271 (-276) 1 0 0 (-2) 0 0 0 0 0 0 0 0 0 0;
T (-8) (-493) 2 0 0 (-2) 1 0 0 0 0 0 0 0 0 0;
T 285 (-177) 0 0 0 0 0 0 0 0 0 2 (-5) 0 0 (-1);
T (-7) (-427) 0 1 2 (-2) 1 0 0 0 0 0 0 0 0 0;
T (-371) 38 0 2 0 0 0 0 0 0 0 0 0 0 0 0;
T 375 4 0 1 (-1) 1 (-1) 0 0 0 0 0 0 0 0 0;
T (-82) (-273) 0 0 0 2 0 0 0 0 0 0 0 0 0 0;
T (-6) 293 2 0 (-2) 0 (-2) 0 0 0 0 0 0 0 0 0;
T (-4) 283 2 0 0 0 (-1) 0 0 0 0 0 0 0 0 0;
T 8 275 3 0 2 0 2 0 0 0 0 0 0 0 0 0;
T 7 275 1 (-1) 2 0 2 0 0 0 0 0 0 0 0 0;
T (-7) 270 1 1 (-2) (-2) (-2) 0 0 0 0 0 0 0 0 0;
T (-7) 252 0 1 (-2) (-2) (-2) 0 0 0 0 0 0 0 0 0;
T (-5) (-253) 2 0 0 0 1 0 0 0 0 0 0 0 0 0;
T (-4) 240 1 0 (-2) 2 (-1) 0 0 0 0 0 0 0 0 0;
T (-6) (-237) 1 1 2 0 2 0 0 0 0 0 0 0 0 0;
T 69 (-145) 0 0 1 (-1) 1 0 (-8) 12 0 0 0 0 0 0;
T (-4) 200 0 0 0 0 0 0 3 (-5) 0 0 0 0 0 (-2);
T 199 2 1 0 (-1) 0 (-1) 0 0 0 0 0 0 0 0 0;
T (-94) 107 2 0 0 (-2) 0 0 0 0 0 0 0 0 0 0;
T 4 191 1 0 0 0 2 0 0 0 0 0 0 0 0 0;
T (-58) (-136) 2 0 0 0 0 0 0 0 0 0 0 0 0 0;
T (-52) (-125) 0 0 2 0 0 0 0 0 0 0 0 0 0 0;
T (-4) (-159) 0 0 2 1 2 0 0 0 0 0 0 0 0 0;
T 40 (-123) 1 0 0 (-1) 0 0 0 0 0 0 0 0 0 0;
T 3 (-157) 1 (-1) 0 (-1) (-1) 0 0 0 0 0 0 0 0 0;
T (-3) 150 0 2 (-2) 2 (-1) 0 0 0 0 0 0 0 0 0;
T 4 148 1 0 2 2 1 0 0 0 0 0 0 0 0 0;
T (-4) 145 1 0 (-2) (-4) (-2) 0 0 0 0 0 0 0 0 0;
T 3 (-136) 1 0 0 0 (-2) 0 0 0 0 0 0 0 0 0;
T 3 (-132) 2 0 (-2) (-2) (-2) 0 0 0 0 0 0 0 0 0;
T (-3) (-124) 1 1 2 (-2) 2 0 0 0 0 0 0 0 0 0;
T (-2) (-118) 2 0 2 (-2) 1 0 0 0 0 0 0 0 0 0;
T (-3) 116 2 0 (-2) (-4) (-2) 0 0 0 0 0 0 0 0 0;
T 2 113 0 0 0 0 0 0 0 0 0 2 0 0 0 2;
T 4 (-111) 1 0 0 (-1) (-1) 0 0 0 0 0 0 0 0 0;
T 2 111 1 0 0 2 1 0 0 0 0 0 0 0 0 0;
T 3 (-110) 1 0 (-4) 0 (-2) 0 0 0 0 0 0 0 0 0;
T 3 104 2 0 2 2 2 0 0 0 0 0 0 0 0 0;
T (-51) 56 0 0 0 0 1 0 0 (-1) 2 0 0 0 0 0;
T 2 (-98) 0 0 2 (-2) (-1) 0 0 0 0 0 0 0 0 0;
T (-2) (-94) 0 1 2 0 1 0 0 0 0 0 0 0 0 0;
T (-2) (-89) 3 0 2 (-2) 2 0 0 0 0 0 0 0 0 0;
T (-2) (-88) 0 0 4 (-2) 2 0 0 0 0 0 0 0 0 0;
T 31 60 0 0 0 0 0 0 8 (-13) 0 0 0 0 0 (-1);
T 2 (-87) 1 1 0 (-2) (-1) 0 0 0 0 0 0 0 0 0;
T (-2) (-87) 2 0 (-2) 0 1 0 0 0 0 0 0 0 0 0;
T (-1) 83 0 0 2 0 (-1) 0 0 0 0 0 0 0 0 0;
T (-2) 77 0 1 (-2) 0 (-1) 0 0 0 0 0 0 0 0 0;
T 43 (-36) 0 0 2 (-2) 0 0 0 0 0 0 0 0 0 0;
T (-1) (-73) 0 1 0 0 2 0 0 0 0 0 0 0 0 0;
T 1 71 1 1 0 (-2) 1 0 0 0 0 0 0 0 0 0;
T 1 68 0 0 2 (-1) 2 0 0 0 0 0 0 0 0 0;
T 2 66 0 0 2 4 2 0 0 0 0 0 0 0 0 0;
T (-1) (-62) 1 (-1) 0 0 1 0 0 0 0 0 0 0 0 0;
T (-1) 62 1 0 0 2 (-1) 0 0 0 0 0 0 0 0 0;
T (-58) (-3) 0 0 1 (-1) 1 0 0 (-1) 0 2 (-5) 0 0 0;
T (-1) 58 1 (-1) 0 (-1) (-2) 0 0 0 0 0 0 0 0 0;
T 44 14 0 0 0 0 0 0 0 2 (-8) 3 0 0 0 (-2);
T 2 56 1 (-1) 2 2 2 0 0 0 0 0 0 0 0 0;
T (-13) (-45) 1 0 0 2 0 0 0 0 0 0 0 0 0 0;
T 1 (-57) 0 1 0 0 (-2) 0 0 0 0 0 0 0 0 0;
T 1 56 3 0 2 0 1 0 0 0 0 0 0 0 0 0;
T 1 (-55) 1 (-1) (-2) (-2) (-2) 0 0 0 0 0 0 0 0 0;
T 1 55 1 0 2 (-4) 1 0 0 0 0 0 0 0 0 0;
T (-52) 3 0 0 2 (-2) 1 0 (-5) 6 0 0 0 0 0 0;
T (-1) 54 1 1 (-2) (-2) (-1) 0 0 0 0 0 0 0 0 0;
T (-1) (-51) 0 1 2 2 2 0 0 0 0 0 0 0 0 0;
T (-41) (-11) 0 0 0 0 0 0 0 6 (-8) 3 0 0 0 2;
T (-1) 50 0 1 (-2) (-2) (-1) 0 0 0 0 0 0 0 0 0;
T 1 48 1 (-1) 2 0 1 0 0 0 0 0 0 0 0 0;
T 45 (-4) 1 0 (-2) (-2) 0 0 0 0 0 0 0 0 0 0;
T 1 (-48) 0 0 0 0 0 0 4 (-6) 0 0 0 0 0 (-2);
T 1 46 2 (-1) 2 0 2 0 0 0 0 0 0 0 0 0;
T (-24) 24 2 0 (-2) 0 0 0 0 0 0 0 0 0 0 0;
T 1 46 0 0 0 1 1 0 0 0 0 0 0 0 0 0;
T 35 (-11) 0 0 0 0 1 0 0 (-4) 8 (-3) 0 0 0 0;
T 1 45 0 0 0 2 2 0 0 0 0 0 0 0 0 0;
T 1 (-45) 1 (-1) (-2) 0 (-2) 0 0 0 0 0 0 0 0 0;
T 0 (-45) 0 0 0 0 0 0 0 3 0 (-1) 0 0 0 2;
T (-1) 44 0 0 0 0 0 0 2 (-4) 0 0 0 0 0 (-2);
T 35 9 0 0 0 0 1 0 0 4 (-8) 3 0 0 0 0;
T 1 42 1 1 0 0 1 0 0 0 0 0 0 0 0 0;
T (-1) (-41) 1 1 2 0 1 0 0 0 0 0 0 0 0 0;
T 9 (-33) 0 0 1 (-1) 1 0 0 0 (-2) 0 0 0 0 0;
T 0 41 0 1 0 (-2) 1 0 0 0 0 0 0 0 0 0;
T 1 40 0 3 2 (-2) 2 0 0 0 0 0 0 0 0 0;
T (-1) (-39) 2 1 2 0 2 0 0 0 0 0 0 0 0 0;
T (-39) (-1) 1 0 (-1) 0 (-2) 0 0 0 0 0 0 0 0 0;
T 1 (-39) 0 0 0 1 (-1) 0 0 0 0 0 0 0 0 0;
T (-1) 38 1 0 0 (-2) (-2) 0 0 0 0 0 0 0 0 0;
T 32 (-7) 0 0 0 0 0 0 0 0 0 2 0 0 0 1;
T (-1) 36 1 (-1) 0 0 (-1) 0 0 0 0 0 0 0 0 0;
T (-1) (-36) 0 0 0 0 0 0 2 0 0 0 0 0 0 2;
T 1 (-34) 1 0 (-2) 2 (-2) 0 0 0 0 0 0 0 0 0;
T 1 (-34) 2 0 0 (-2) (-1) 0 0 (-2) 0 2 0 0 0 0;
T 1 33 0 0 0 0 0 0 1 1 0 0 0 0 0 2;
T (-1) (-32) 1 0 2 1 2 0 0 0 0 0 0 0 0 0;
T 1 32 1 0 2 (-1) 2 0 0 0 0 0 0 0 0 0;
T (-1) (-32) 0 0 2 1 1 0 0 0 0 0 0 0 0 0;
T (-1) (-31) 1 0 (-2) 0 1 0 0 0 0 0 0 0 0 0;
T (-31) 0 0 0 1 0 1 0 0 0 0 0 0 0 0 0;
T (-7) (-24) 1 0 2 0 0 0 0 0 0 0 0 0 0 0;
T 10 (-21) 0 0 1 (-1) 1 0 0 (-1) 0 0 (-1) 0 0 0;
T (-1) (-30) 1 0 0 (-2) 2 0 0 0 0 0 0 0 0 0;
T (-1) 29 1 0 (-2) (-4) (-1) 0 0 0 0 0 0 0 0 0;
T (-1) (-29) 1 1 2 (-2) 1 0 0 0 0 0 0 0 0 0;
T 0 29 1 0 (-2) 1 (-1) 0 0 0 0 0 0 0 0 0;
T 23 6 0 0 1 (-1) 1 0 0 (-1) 0 (-1) 0 0 0 0;
T 26 2 0 0 0 0 0 0 0 0 0 2 (-5) 0 0 1;
T 0 (-27) 2 0 (-2) (-2) (-1) 0 0 0 0 0 0 0 0 0;
T 25 2 0 0 0 0 0 0 5 (-8) 0 0 0 0 0 (-2);
T 9 (-18) 0 1 0 (-2) 0 0 0 0 0 0 0 0 0 0;
T 1 25 0 0 0 0 0 0 0 1 0 1 0 0 0 2;
T 14 (-11) 1 1 0 (-2) 0 0 0 0 0 0 0 0 0 0;
T 0 (-25) 1 1 0 0 (-1) 0 0 0 0 0 0 0 0 0;
T 1 24 4 0 2 0 2 0 0 0 0 0 0 0 0 0;
T (-1) (-24) 2 1 2 (-2) 2 0 0 0 0 0 0 0 0 0;
T 0 23 2 0 (-2) (-4) (-1) 0 0 0 0 0 0 0 0 0;
T 1 23 0 1 2 1 2 0 0 0 0 0 0 0 0 0;
T (-1) (-23) 1 0 4 (-2) 2 0 0 0 0 0 0 0 0 0;
T 0 (-23) 0 1 0 2 1 0 0 0 0 0 0 0 0 0;
T 0 (-22) 1 0 (-4) 0 (-1) 0 0 0 0 0 0 0 0 0;
T 0 21 1 0 0 (-4) (-1) 0 0 0 0 0 0 0 0 0;
T 1 21 2 0 2 2 1 0 0 0 0 0 0 0 0 0;
T (-17) 3 0 0 1 (-1) 1 0 0 (-1) 0 2 0 0 0 0;
T (-17) 3 0 0 0 0 0 0 8 (-13) 0 0 0 0 0 (-2);
T 0 (-19) 0 0 0 0 0 0 5 (-7) 0 0 0 0 0 (-2);
T 14 (-6) 0 0 0 0 0 0 0 0 0 0 2 0 0 1;
T 3 (-17) 0 0 1 (-1) 1 0 (-5) 7 0 0 0 0 0 0;
T (-13) 6 0 0 1 (-1) 1 0 0 (-1) 0 0 2 0 0 0;
T 0 19 0 0 2 (-4) 1 0 0 0 0 0 0 0 0 0;
T 0 19 0 0 2 (-3) 2 0 0 0 0 0 0 0 0 0;
T (-6) (-13) 1 0 2 0 2 0 0 1 0 0 0 0 0 0;
T 0 18 0 1 0 (-2) (-1) 0 0 0 0 0 0 0 0 0;
T (-9) (-9) 1 (-1) 0 0 0 0 0 0 0 0 0 0 0 0;
T 10 (-9) 0 0 0 0 0 0 0 8 (-16) 4 5 0 0 (-2);
T 6 12 1 0 (-2) 0 (-2) 0 0 4 (-8) 3 0 0 0 0;
T 0 18 0 0 0 0 0 0 0 4 0 (-2) 0 0 0 2;
T 0 (-18) 0 0 4 0 2 0 0 0 0 0 0 0 0 0;
T 0 17 0 0 0 4 1 0 0 0 0 0 0 0 0 0;
T (-3) 15 0 0 0 0 0 0 0 2 0 (-1) 0 0 0 2;
T (-1) (-16) 0 0 0 0 0 0 0 2 0 1 0 0 0 2;
T 0 17 1 1 (-2) (-4) (-2) 0 0 0 0 0 0 0 0 0;
T 0 (-17) 2 0 0 (-2) (-2) 0 0 0 0 0 0 0 0 0;
T 11 6 0 0 0 0 0 0 8 (-11) 0 0 0 0 0 (-2);
T (-8) 9 1 0 (-2) 0 0 0 0 0 0 0 0 0 0 0;
T 0 (-17) 3 0 2 (-2) 1 0 0 0 0 0 0 0 0 0;
T (-17) 0 0 0 0 0 0 0 2 (-1) 0 0 0 0 0 2;
T 0 (-16) 0 0 4 (-2) 1 0 0 0 0 0 0 0 0 0;
T 1 15 1 0 2 4 2 0 0 0 0 0 0 0 0 0;
T (-13) (-3) 0 0 0 0 0 0 1 (-1) 0 0 0 0 0 (-1);
T 0 15 1 1 (-2) 0 (-2) 0 0 0 0 0 0 0 0 0;
T 0 15 2 1 0 (-2) (-1) 0 0 0 0 0 0 0 0 0;
T (-13) 3 0 0 0 0 0 0 4 (-6) 0 0 0 0 0 (-1);
T 10 (-6) 0 0 0 0 0 0 8 (-15) 0 0 0 0 0 (-2);
T (-7) 8 0 0 0 0 0 0 0 1 2 0 0 0 0 2;
T (-9) (-6) 0 0 0 0 0 0 0 3 0 (-2) 0 0 0 2;
T 0 15 3 0 0 0 (-1) 0 0 0 0 0 0 0 0 0;
T (-7) (-8) 0 0 0 0 0 0 0 3 (-2) 0 0 0 0 2;
T 0 (-14) 2 0 0 (-4) (-1) 0 0 0 0 0 0 0 0 0;
T 2 12 0 0 0 0 0 0 0 0 0 3 0 0 0 2;
T 7 8 1 1 0 0 0 0 0 0 0 0 0 0 0 0;
T (-3) (-11) 3 0 0 0 0 0 0 0 0 0 0 0 0 0;
T (-1) (-14) 0 0 0 0 0 0 0 4 (-2) 0 0 0 0 2;
T 0 (-14) 0 0 2 (-2) 1 0 (-3) 3 0 0 0 0 0 0;
T 2 (-12) 1 0 0 (-1) 1 0 0 0 0 0 0 0 0 0;
T 0 (-14) 1 1 2 2 2 0 0 0 0 0 0 0 0 0;
T 0 14 0 0 1 (-1) 1 0 0 3 (-8) 3 0 0 0 0;
T 0 14 0 0 2 (-1) 1 0 0 0 0 0 0 0 0 0;
T 0 13 0 0 2 4 1 0 0 0 0 0 0 0 0 0;
T 8 (-6) 0 0 0 0 1 0 8 (-13) 0 0 0 0 0 0;
T 0 13 1 (-1) 0 (-2) (-1) 0 0 0 0 0 0 0 0 0;
T 0 13 0 0 0 0 0 0 0 0 0 0 2 0 0 2;
T 1 13 3 0 2 2 2 0 0 0 0 0 0 0 0 0;
T 0 13 2 0 0 2 1 0 0 0 0 0 0 0 0 0;
T 0 13 1 (-1) (-2) 2 (-1) 0 0 0 0 0 0 0 0 0;
T (-2) (-11) 2 0 0 (-2) 1 0 0 (-2) 0 3 0 0 0 0;
T 8 (-4) 0 0 0 1 0 0 0 0 0 0 0 0 0 0;
T 0 13 2 0 0 (-4) 1 0 0 0 0 0 0 0 0 0;
T 0 13 1 0 0 (-4) 1 0 0 0 0 0 0 0 0 0;
T 1 (-12) 2 1 (-2) 0 (-1) 0 0 0 0 0 0 0 0 0;
T 0 12 0 2 (-2) (-2) (-2) 0 0 0 0 0 0 0 0 0;
T (-2) (-11) 0 0 0 0 0 0 5 (-8) 0 0 0 0 0 (-1);
T 0 (-12) 2 0 2 (-4) 1 0 0 0 0 0 0 0 0 0;
T 0 (-12) 0 0 0 0 0 0 0 8 (-16) 4 5 0 0 2;
T 0 (-12) 0 0 1 (-1) 1 0 0 (-5) 8 (-3) 0 0 0 0;
T 4 8 1 0 0 0 (-1) 0 (-18) 16 0 0 0 0 0 0;
T 0 (-12) 0 0 0 0 0 0 0 1 0 (-3) 0 0 0 (-2);
T 0 (-12) 0 0 0 2 (-2) 0 0 0 0 0 0 0 0 0;
T 0 12 1 (-1) 0 (-2) (-2) 0 0 0 0 0 0 0 0 0;
T 0 (-11) 0 0 0 0 0 0 6 (-8) 0 0 0 0 0 (-2);
T 3 (-9) 1 0 0 (-4) 0 0 0 0 0 0 0 0 0 0;
T 0 11 0 2 0 0 1 0 0 0 0 0 0 0 0 0;
T (-11) 0 0 0 0 0 0 0 3 (-2) 0 0 0 0 0 2;
T 0 11 1 (-1) 2 2 1 0 0 0 0 0 0 0 0 0;
T 0 (-11) 1 (-1) (-2) 0 (-1) 0 0 0 0 0 0 0 0 0;
T 7 5 0 0 0 0 1 0 (-8) 13 0 0 0 0 0 0;
T 11 0 0 0 0 0 0 0 2 (-5) 0 0 0 0 0 (-2);
T 0 (-11) 0 0 0 0 0 0 1 (-3) 0 0 0 0 0 (-2);
T 0 (-11) 4 0 2 (-2) 2 0 0 0 0 0 0 0 0 0;
T 2 (-9) 0 0 0 0 1 0 0 0 0 (-2) 5 0 0 0;
T 0 11 2 1 (-2) (-4) (-2) 0 0 0 0 0 0 0 0 0;
T 2 9 0 0 0 0 1 0 0 0 0 2 (-5) 0 0 0;
T 0 (-11) 0 2 2 (-2) 1 0 0 0 0 0 0 0 0 0;
T 0 11 1 0 2 0 (-1) 0 0 0 0 0 0 0 0 0;
T (-8) (-2) 0 0 0 0 1 0 0 0 0 1 0 0 0 0;
T 0 (-10) 2 1 0 (-2) 1 0 0 0 0 0 0 0 0 0;
T 0 (-10) 2 (-1) (-2) 0 (-1) 0 0 0 0 0 0 0 0 0;
T (-3) (-7) 1 0 0 0 1 0 (-18) 16 0 0 0 0 0 0;
T 0 10 1 2 (-2) (-2) (-2) 0 0 0 0 0 0 0 0 0;
T 0 10 2 0 0 (-2) 2 0 0 0 0 0 0 0 0 0;
T 0 (-10) 1 (-1) (-2) (-2) (-1) 0 0 0 0 0 0 0 0 0].

(** tables52ab.py:1575-1610 *)
Definition xj2 : list row := [
T 203798 8146 0 0 0 0 1 0 0 0 0 0 0 0 0 0;
T 15574 (-275) 0 0 2 (-2) 2 0 0 0 0 0 0 0 0 0;
T 2692 (-46) 0 0 2 0 2 0 0 0 0 0 0 0 0 0;
T (-2443) 47 0 0 0 0 2 0 0 0 0 0 0 0 0 0;
T (-1736) (-50) 0 1 0 0 0 0 0 0 0 0 0 0 0 0;
T (-841) 1 1 0 0 0 0 0 0 0 0 0 0 0 0 0;
T 608 (-136) 0 1 2 (-2) 2 0 0 0 0 0 0 0 0 0;
T 459 17 0 0 2 0 1 0 0 0 0 0 0 0 0 0;
T 357 (-6) 1 0 2 0 2 0 0 0 0 0 0 0 0 0;
T 254 60 0 1 (-2) 2 (-2) 0 0 0 0 0 0 0 0 0;
T 186 0 1 0 0 (-2) 0 0 0 0 0 0 0 0 0 0;
T (-152) (-7) 0 0 2 (-2) 1 0 0 0 0 0 0 0 0 0;
T 146 4 1 0 (-2) 0 (-2) 0 0 0 0 0 0 0 0 0;
T (-75) (-2) 1 0 0 0 1 0 0 0 0 0 0 0 0 0;
T (-75) 0 0 0 0 2 0 0 0 0 0 0 0 0 0 0;
T (-71) (-1) 1 0 (-2) (-2) (-2) 0 0 0 0 0 0 0 0 0;
T (-69) 2 1 0 0 0 (-1) 0 0 0 0 0 0 0 0 0;
T 61 2 1 0 2 0 1 0 0 0 0 0 0 0 0 0;
T 54 (-4) 2 0 (-2) 0 (-1) 0 0 0 0 0 0 0 0 0;
T (-56) 0 2 0 0 (-2) 0 0 0 0 0 0 0 0 0 0;
T 46 (-2) 0 0 2 2 2 0 0 0 0 0 0 0 0 0;
T 38 (-1) 0 2 (-2) 2 (-2) 0 0 0 0 0 0 0 0 0;
T 37 (-2) 2 0 2 0 2 0 0 0 0 0 0 0 0 0;
T (-34) 1 1 0 2 (-2) 2 0 0 0 0 0 0 0 0 0;
T (-35) 0 2 0 0 0 0 0 0 0 0 0 0 0 0 0;
T (-31) 0 0 0 2 0 0 0 0 0 0 0 0 0 0 0;
T 19 (-9) 0 2 2 (-2) 2 0 0 0 0 0 0 0 0 0;
T 26 0 0 0 2 (-2) 0 0 0 0 0 0 0 0 0 0;
T 24 (-1) 1 0 (-2) 0 (-1) 0 0 0 0 0 0 0 0 0;
T (-20) 0 0 2 0 0 0 0 0 0 0 0 0 0 0 0;
T 18 (-1) 1 0 0 (-2) (-1) 0 0 0 0 0 0 0 0 0;
T 17 0 0 1 0 0 1 0 0 0 0 0 0 0 0 0;
T 15 1 1 0 0 (-2) 1 0 0 0 0 0 0 0 0 0;
T (-15) 0 0 1 0 0 (-1) 0 0 0 0 0 0 0 0 0;
T (-13) 0 2 0 (-2) 0 0 0 0 0 0 0 0 0 0 0;
T (-12) 0 1 0 (-2) (-2) (-1) 0 0 0 0 0 0 0 0 0].

(** tables52ab.py:1613-1616 *)
Definition xj3 : list row := [
T 173 (-2039) 0 0 0 0 1 0 0 0 0 0 0 0 0 0;
T 0 (-127) 0 0 2 (-2) 2 0 0 0 0 0 0 0 0 0;
T 0 (-22) 0 0 2 0 2 0 0 0 0 0 0 0 0 0;
T 0 20 0 0 0 0 2 0 0 0 0 0 0 0 0 0].

(** tables52ab.py:1619-1619 *)
Definition xj4 : list row := [
T (-10) (-2) 0 0 0 0 1 0 0 0 0 0 0 0 0 0].

(** tables52ab.py:1621-2582 *)
Definition yj0 : list row := [
T 153818 920523626 0 0 0 0 1 0 0 0 0 0 0 0 0 0;
T (-45866) 57303342 0 0 2 (-2) 2 0 0 0 0 0 0 0 0 0;
T 13741 9784669 0 0 2 0 2 0 0 0 0 0 0 0 0 0;
T (-2905) (-8961824) 0 0 0 0 2 0 0 0 0 0 0 0 0 0;
T (-1740) 2243842 0 1 2 (-2) 2 0 0 0 0 0 0 0 0 0;
T 3180 2006950 0 0 2 0 1 0 0 0 0 0 0 0 0 0;
T 3670 1290266 1 0 2 0 2 0 0 0 0 0 0 0 0 0;
T (-1320) (-959272) 0 1 (-2) 2 (-2) 0 0 0 0 0 0 0 0 0;
T (-19240) 738702 0 1 0 0 0 0 0 0 0 0 0 0 0 0;
T 392 (-691822) 0 0 2 (-2) 1 0 0 0 0 0 0 0 0 0;
T 40 (-533113) 1 0 (-2) 0 (-2) 0 0 0 0 0 0 0 0 0;
T (-90) (-332389) 1 0 0 0 1 0 0 0 0 0 0 0 0 0;
T 750 314398 1 0 0 0 (-1) 0 0 0 0 0 0 0 0 0;
T 780 263613 1 0 2 0 1 0 0 0 0 0 0 0 0 0;
T (-660) 255451 1 0 (-2) (-2) (-2) 0 0 0 0 0 0 0 0 0;
T (-200) (-242359) 2 0 (-2) 0 (-1) 0 0 0 0 0 0 0 0 0;
T 680 164501 0 0 2 2 2 0 0 0 0 0 0 0 0 0;
T 0 (-138700) 0 2 (-2) 2 (-2) 0 0 0 0 0 0 0 0 0;
T 590 132381 2 0 2 0 2 0 0 0 0 0 0 0 0 0;
T (-30) (-123389) 1 0 2 (-2) 2 0 0 0 0 0 0 0 0 0;
T 30 (-107560) 1 0 (-2) 0 (-1) 0 0 0 0 0 0 0 0 0;
T (-448) 85285 0 1 0 0 1 0 0 0 0 0 0 0 0 0;
T 10 (-80034) 1 0 0 (-2) (-1) 0 0 0 0 0 0 0 0 0;
T 3580 (-67499) 1 0 0 0 0 0 0 0 0 0 0 0 0 0;
T (-140) 69554 1 0 0 (-2) 1 0 0 0 0 0 0 0 0 0;
T (-50) 68499 0 2 2 (-2) 2 0 0 0 0 0 0 0 0 0;
T (-262) 64375 0 1 0 0 (-1) 0 0 0 0 0 0 0 0 0;
T (-150) 52211 1 0 (-2) (-2) (-1) 0 0 0 0 0 0 0 0 0;
T 27350 16470 0 0 1 (-1) 1 0 0 (-1) 0 (-2) 5 0 0 0;
T 140 33524 0 0 2 2 1 0 0 0 0 0 0 0 0 0;
T 190 32660 1 0 2 2 2 0 0 0 0 0 0 0 0 0;
T 40 32711 0 0 0 2 1 0 0 0 0 0 0 0 0 0;
T (-50) (-32503) 0 1 2 0 2 0 0 0 0 0 0 0 0 0;
T (-40) 30703 0 1 (-2) 0 (-2) 0 0 0 0 0 0 0 0 0;
T 50 30417 2 0 0 (-2) (-1) 0 0 0 0 0 0 0 0 0;
T (-10) (-30446) 1 0 2 (-2) 1 0 0 0 0 0 0 0 0 0;
T (-40) (-27681) 2 0 2 (-2) 2 0 0 0 0 0 0 0 0 0;
T 90 27205 0 0 0 2 (-1) 0 0 0 0 0 0 0 0 0;
T 30 27222 0 1 (-2) 2 (-1) 0 0 0 0 0 0 0 0 0;
T 120 26945 2 0 2 0 1 0 0 0 0 0 0 0 0 0;
T 10 (-22067) 2 0 0 (-2) 1 0 0 0 0 0 0 0 0 0;
T 12860 (-7710) 0 0 0 0 0 0 0 0 0 2 (-5) 0 0 (-1);
T 10 (-19079) 0 1 2 (-2) 1 0 0 0 0 0 0 0 0 0;
T 16790 0 0 1 (-1) 1 (-1) 0 0 0 0 0 0 0 0 0;
T (-820) (-12348) 1 0 0 (-2) 0 0 0 0 0 0 0 0 0 0;
T 10 13104 2 0 (-2) 0 (-2) 0 0 0 0 0 0 0 0 0;
T 40 12664 2 0 0 0 (-1) 0 0 0 0 0 0 0 0 0;
T 290 (-12228) 0 0 0 2 0 0 0 0 0 0 0 0 0 0;
T 70 12320 3 0 2 0 2 0 0 0 0 0 0 0 0 0;
T 40 12320 1 (-1) 2 0 2 0 0 0 0 0 0 0 0 0;
T (-30) 12070 1 1 (-2) (-2) (-2) 0 0 0 0 0 0 0 0 0;
T (-50) 11290 0 1 (-2) (-2) (-2) 0 0 0 0 0 0 0 0 0;
T (-20) (-11294) 2 0 0 0 1 0 0 0 0 0 0 0 0 0;
T 20 10731 1 0 (-2) 2 (-1) 0 0 0 0 0 0 0 0 0;
T (-30) (-10620) 1 1 2 0 2 0 0 0 0 0 0 0 0 0;
T 3190 (-6410) 0 0 1 (-1) 1 0 (-8) 12 0 0 0 0 0 0;
T 0 8950 0 0 0 0 0 0 3 (-5) 0 0 0 0 0 (-2);
T 8910 0 1 0 (-1) 0 (-1) 0 0 0 0 0 0 0 0 0;
T 0 8532 1 0 0 0 2 0 0 0 0 0 0 0 0 0;
T (-20) (-7100) 0 0 2 1 2 0 0 0 0 0 0 0 0 0;
T 0 (-7001) 1 (-1) 0 (-1) (-1) 0 0 0 0 0 0 0 0 0;
T 1390 (-5530) 1 0 0 (-1) 0 0 0 0 0 0 0 0 0 0;
T 0 6725 0 2 (-2) 2 (-1) 0 0 0 0 0 0 0 0 0;
T 40 6629 1 0 2 2 1 0 0 0 0 0 0 0 0 0;
T (-40) 6470 1 0 (-2) (-4) (-2) 0 0 0 0 0 0 0 0 0;
T 130 (-6090) 2 0 0 0 0 0 0 0 0 0 0 0 0 0;
T (-20) (-6092) 1 0 0 0 (-2) 0 0 0 0 0 0 0 0 0;
T 20 (-5920) 2 0 (-2) (-2) (-2) 0 0 0 0 0 0 0 0 0;
T 110 (-5555) 0 0 2 0 0 0 0 0 0 0 0 0 0 0;
T 0 (-5560) 1 1 2 (-2) 2 0 0 0 0 0 0 0 0 0;
T (-10) (-5269) 2 0 2 (-2) 1 0 0 0 0 0 0 0 0 0;
T (-20) 5180 2 0 (-2) (-4) (-2) 0 0 0 0 0 0 0 0 0;
T 100 (-4951) 1 0 0 (-1) (-1) 0 0 0 0 0 0 0 0 0;
T 0 5050 0 0 0 0 0 0 0 0 0 2 0 0 0 2;
T 250 4770 2 0 0 (-2) 0 0 0 0 0 0 0 0 0 0;
T 10 4959 1 0 0 2 1 0 0 0 0 0 0 0 0 0;
T 10 (-4900) 1 0 (-4) 0 (-2) 0 0 0 0 0 0 0 0 0;
T (-2320) 2460 0 0 0 0 1 0 0 (-1) 2 0 0 0 0 0;
T 40 4650 2 0 2 2 2 0 0 0 0 0 0 0 0 0;
T (-10) (-4404) 0 0 2 (-2) (-1) 0 0 0 0 0 0 0 0 0;
T (-10) (-4219) 0 1 2 0 1 0 0 0 0 0 0 0 0 0;
T 1330 2690 0 0 0 0 0 0 8 (-13) 0 0 0 0 0 (-1);
T (-10) (-3990) 3 0 2 (-2) 2 0 0 0 0 0 0 0 0 0;
T (-10) (-3950) 0 0 4 (-2) 2 0 0 0 0 0 0 0 0 0;
T 0 (-3911) 1 1 0 (-2) (-1) 0 0 0 0 0 0 0 0 0;
T (-10) (-3892) 2 0 (-2) 0 1 0 0 0 0 0 0 0 0 0;
T 10 3695 0 0 2 0 (-1) 0 0 0 0 0 0 0 0 0;
T (-10) 3459 0 1 (-2) 0 (-1) 0 0 0 0 0 0 0 0 0;
T 20 (-3255) 0 1 0 0 2 0 0 0 0 0 0 0 0 0;
T (-10) 3161 1 1 0 (-2) 1 0 0 0 0 0 0 0 0 0;
T 0 3040 0 0 2 (-1) 2 0 0 0 0 0 0 0 0 0;
T 20 2940 0 0 2 4 2 0 0 0 0 0 0 0 0 0;
T 0 (-2791) 1 (-1) 0 0 1 0 0 0 0 0 0 0 0 0;
T 10 2750 1 0 0 2 (-1) 0 0 0 0 0 0 0 0 0;
T (-2570) (-170) 0 0 1 (-1) 1 0 0 (-1) 0 2 (-5) 0 0 0;
T 1990 590 0 0 0 0 0 0 0 2 (-8) 3 0 0 0 (-2);
T 0 2580 1 (-1) 0 (-1) (-2) 0 0 0 0 0 0 0 0 0;
T 20 2520 1 (-1) 2 2 2 0 0 0 0 0 0 0 0 0;
T 0 (-2531) 0 1 0 0 (-2) 0 0 0 0 0 0 0 0 0;
T 20 2500 3 0 2 0 1 0 0 0 0 0 0 0 0 0;
T (-10) 2440 1 0 2 (-4) 1 0 0 0 0 0 0 0 0 0;
T 10 (-2440) 1 (-1) (-2) (-2) (-2) 0 0 0 0 0 0 0 0 0;
T (-2330) 90 0 0 2 (-2) 1 0 (-5) 6 0 0 0 0 0 0;
T (-10) 2400 1 1 (-2) (-2) (-1) 0 0 0 0 0 0 0 0 0;
T (-1800) (-530) 0 0 0 0 0 0 0 6 (-8) 3 0 0 0 2;
T (-10) (-2280) 0 1 2 2 2 0 0 0 0 0 0 0 0 0;
T (-10) 2250 0 1 (-2) (-2) (-1) 0 0 0 0 0 0 0 0 0;
T 10 2160 1 (-1) 2 0 1 0 0 0 0 0 0 0 0 0;
T 0 (-2130) 0 0 0 0 0 0 4 (-6) 0 0 0 0 0 (-2);
T 10 2070 2 (-1) 2 0 2 0 0 0 0 0 0 0 0 0;
T 70 (-2010) 0 0 0 0 0 0 0 3 0 (-1) 0 0 0 2;
T 0 2051 0 0 0 1 1 0 0 0 0 0 0 0 0 0;
T 1590 (-450) 0 0 0 0 1 0 0 (-4) 8 (-3) 0 0 0 0;
T 20 (-1994) 1 0 0 2 0 0 0 0 0 0 0 0 0 0;
T 0 2011 0 0 0 2 2 0 0 0 0 0 0 0 0 0;
T 1560 440 0 0 0 0 1 0 0 4 (-8) 3 0 0 0 0;
T 0 (-2000) 1 (-1) (-2) 0 (-2) 0 0 0 0 0 0 0 0 0;
T 0 1980 0 0 0 0 0 0 2 (-4) 0 0 0 0 0 (-2);
T 0 1891 1 1 0 0 1 0 0 0 0 0 0 0 0 0;
T 430 (-1460) 0 0 1 (-1) 1 0 0 0 (-2) 0 0 0 0 0;
T (-10) (-1850) 1 1 2 0 1 0 0 0 0 0 0 0 0 0;
T (-10) 1840 0 1 0 (-2) 1 0 0 0 0 0 0 0 0 0;
T 0 1810 0 3 2 (-2) 2 0 0 0 0 0 0 0 0 0;
T 100 1681 0 2 0 0 0 0 0 0 0 0 0 0 0 0;
T (-10) (-1760) 2 1 2 0 2 0 0 0 0 0 0 0 0 0;
T (-1760) 0 1 0 (-1) 0 (-2) 0 0 0 0 0 0 0 0 0;
T (-130) (-1626) 0 0 2 (-2) 0 0 0 0 0 0 0 0 0 0;
T 0 (-1741) 0 0 0 1 (-1) 0 0 0 0 0 0 0 0 0;
T 1450 (-270) 0 0 0 0 0 0 0 0 0 2 0 0 0 1;
T 0 1708 1 0 0 (-2) (-2) 0 0 0 0 0 0 0 0 0;
T 0 1621 1 (-1) 0 0 (-1) 0 0 0 0 0 0 0 0 0;
T 0 (-1600) 0 0 0 0 0 0 2 0 0 0 0 0 0 2;
T 0 (-1531) 1 0 (-2) 2 (-2) 0 0 0 0 0 0 0 0 0;
T 0 (-1510) 2 0 0 (-2) (-1) 0 0 (-2) 0 2 0 0 0 0;
T 0 1470 0 0 0 0 0 0 1 1 0 0 0 0 0 2;
T 0 1440 1 0 2 (-1) 2 0 0 0 0 0 0 0 0 0;
T (-10) (-1430) 1 0 2 1 2 0 0 0 0 0 0 0 0 0;
T 0 (-1440) 0 0 2 1 1 0 0 0 0 0 0 0 0 0;
T 0 (-1381) 1 0 (-2) 0 1 0 0 0 0 0 0 0 0 0;
T 450 (-930) 0 0 1 (-1) 1 0 0 (-1) 0 0 (-1) 0 0 0;
T (-1380) 0 0 0 1 0 1 0 0 0 0 0 0 0 0 0;
T 0 (-1338) 1 0 0 (-2) 2 0 0 0 0 0 0 0 0 0;
T (-10) 1310 1 0 (-2) (-4) (-1) 0 0 0 0 0 0 0 0 0;
T 1030 270 0 0 1 (-1) 1 0 0 (-1) 0 (-1) 0 0 0 0;
T 0 1280 1 0 (-2) 1 (-1) 0 0 0 0 0 0 0 0 0;
T 0 (-1280) 1 1 2 (-2) 1 0 0 0 0 0 0 0 0 0;
T 1170 80 0 0 0 0 0 0 0 0 0 2 (-5) 0 0 1;
T 0 (-1200) 2 0 (-2) (-2) (-1) 0 0 0 0 0 0 0 0 0;
T 1130 50 0 0 0 0 0 0 5 (-8) 0 0 0 0 0 (-2);
T 0 1140 0 0 0 0 0 0 0 1 0 1 0 0 0 2;
T 0 (-1120) 1 1 0 0 (-1) 0 0 0 0 0 0 0 0 0;
T 10 1090 4 0 2 0 2 0 0 0 0 0 0 0 0 0;
T 10 (-1077) 1 0 2 0 0 0 0 0 0 0 0 0 0 0;
T 0 (-1080) 2 1 2 (-2) 2 0 0 0 0 0 0 0 0 0;
T (-20) 1047 2 0 (-2) 0 0 0 0 0 0 0 0 0 0 0;
T 0 1050 2 0 (-2) (-4) (-1) 0 0 0 0 0 0 0 0 0;
T 0 (-1040) 1 0 4 (-2) 2 0 0 0 0 0 0 0 0 0;
T 0 1040 0 1 2 1 2 0 0 0 0 0 0 0 0 0;
T 0 (-1020) 0 1 0 2 1 0 0 0 0 0 0 0 0 0;
T 0 (-1000) 1 0 (-4) 0 (-1) 0 0 0 0 0 0 0 0 0;
T 0 960 1 0 0 (-4) (-1) 0 0 0 0 0 0 0 0 0;
T 10 940 2 0 2 2 1 0 0 0 0 0 0 0 0 0;
T (-760) 170 0 0 0 0 0 0 8 (-13) 0 0 0 0 0 (-2);
T (-770) 140 0 0 1 (-1) 1 0 0 (-1) 0 2 0 0 0 0;
T 140 (-750) 0 0 1 (-1) 1 0 (-5) 7 0 0 0 0 0 0;
T 610 (-270) 0 0 0 0 0 0 0 0 0 0 2 0 0 1;
T 0 (-870) 0 0 0 0 0 0 5 (-7) 0 0 0 0 0 (-2);
T (-590) 260 0 0 1 (-1) 1 0 0 (-1) 0 0 2 0 0 0;
T 0 840 0 0 2 (-4) 1 0 0 0 0 0 0 0 0 0;
T (-20) (-811) 0 1 0 (-2) 0 0 0 0 0 0 0 0 0 0;
T (-260) (-570) 1 0 2 0 2 0 0 1 0 0 0 0 0 0;
T 0 830 0 0 2 (-3) 2 0 0 0 0 0 0 0 0 0;
T 270 550 1 0 (-2) 0 (-2) 0 0 4 (-8) 3 0 0 0 0;
T 420 (-400) 0 0 0 0 0 0 0 8 (-16) 4 5 0 0 (-2);
T (-10) 800 0 0 0 0 0 0 0 4 0 (-2) 0 0 0 2;
T 0 809 0 1 0 (-2) (-1) 0 0 0 0 0 0 0 0 0;
T (-130) 670 0 0 0 0 0 0 0 2 0 (-1) 0 0 0 2;
T 0 (-790) 0 0 4 0 2 0 0 0 0 0 0 0 0 0;
T 0 780 0 0 0 4 1 0 0 0 0 0 0 0 0 0;
T (-750) (-20) 0 0 0 0 0 0 2 (-1) 0 0 0 0 0 2;
T (-50) (-720) 0 0 0 0 0 0 0 2 0 1 0 0 0 2;
T 490 270 0 0 0 0 0 0 8 (-11) 0 0 0 0 0 (-2);
T 0 750 1 1 (-2) (-4) (-2) 0 0 0 0 0 0 0 0 0;
T 0 (-750) 3 0 2 (-2) 1 0 0 0 0 0 0 0 0 0;
T 0 (-749) 2 0 0 (-2) (-2) 0 0 0 0 0 0 0 0 0;
T 0 (-720) 0 0 4 (-2) 1 0 0 0 0 0 0 0 0 0;
T 10 690 1 0 2 4 2 0 0 0 0 0 0 0 0 0;
T (-560) 140 0 0 0 0 0 0 4 (-6) 0 0 0 0 0 (-1);
T (-570) (-130) 0 0 0 0 0 0 1 (-1) 0 0 0 0 0 (-1);
T 0 690 2 1 0 (-2) (-1) 0 0 0 0 0 0 0 0 0;
T 420 (-270) 0 0 0 0 0 0 8 (-15) 0 0 0 0 0 (-2);
T 0 690 1 1 (-2) 0 (-2) 0 0 0 0 0 0 0 0 0;
T (-310) 370 0 0 0 0 0 0 0 1 2 0 0 0 0 2;
T (-390) (-290) 0 0 0 0 0 0 0 3 0 (-2) 0 0 0 2;
T 0 660 3 0 0 0 (-1) 0 0 0 0 0 0 0 0 0;
T (-310) (-350) 0 0 0 0 0 0 0 3 (-2) 0 0 0 0 2;
T 110 (-539) 1 0 0 (-1) 1 0 0 0 0 0 0 0 0 0;
T 0 (-640) 2 0 0 (-4) (-1) 0 0 0 0 0 0 0 0 0;
T 90 550 0 0 0 0 0 0 0 0 0 3 0 0 0 2;
T 0 (-630) 0 0 2 (-2) 1 0 (-3) 3 0 0 0 0 0 0;
T (-10) (-620) 0 0 0 0 0 0 0 4 (-2) 0 0 0 0 2;
T 0 (-610) 1 1 2 2 2 0 0 0 0 0 0 0 0 0;
T 0 610 0 0 1 (-1) 1 0 0 3 (-8) 3 0 0 0 0;
T 0 610 0 0 2 (-1) 1 0 0 0 0 0 0 0 0 0;
T 350 (-250) 0 0 0 0 1 0 8 (-13) 0 0 0 0 0 0;
T 0 600 0 0 2 4 1 0 0 0 0 0 0 0 0 0;
T 0 590 1 (-1) 0 (-2) (-1) 0 0 0 0 0 0 0 0 0;
T (-90) (-480) 2 0 0 (-2) 1 0 0 (-2) 0 3 0 0 0 0;
T 0 570 1 (-1) (-2) 2 (-1) 0 0 0 0 0 0 0 0 0;
T 10 560 3 0 2 2 2 0 0 0 0 0 0 0 0 0;
T 0 570 0 0 0 0 0 0 0 0 0 0 2 0 0 2;
T 0 570 2 0 0 2 1 0 0 0 0 0 0 0 0 0;
T 0 560 2 0 0 (-4) 1 0 0 0 0 0 0 0 0 0;
T 0 560 1 0 0 (-4) 1 0 0 0 0 0 0 0 0 0;
T 20 (-540) 2 1 (-2) 0 (-1) 0 0 0 0 0 0 0 0 0;
T (-90) (-470) 0 0 0 0 0 0 5 (-8) 0 0 0 0 0 (-1);
T (-40) (-510) 1 1 0 (-2) 0 0 0 0 0 0 0 0 0 0;
T 0 550 0 2 (-2) (-2) (-2) 0 0 0 0 0 0 0 0 0;
T 0 (-540) 2 0 2 (-4) 1 0 0 0 0 0 0 0 0 0;
T 0 (-540) 0 0 0 0 0 0 0 8 (-16) 4 5 0 0 2;
T 180 360 1 0 0 0 (-1) 0 (-18) 16 0 0 0 0 0 0;
T 0 530 1 (-1) 0 (-2) (-2) 0 0 0 0 0 0 0 0 0;
T 0 (-530) 0 0 1 (-1) 1 0 0 (-5) 8 (-3) 0 0 0 0;
T 0 (-520) 0 0 0 0 0 0 0 1 0 (-3) 0 0 0 (-2);
T 0 (-519) 0 0 0 2 (-2) 0 0 0 0 0 0 0 0 0;
T 300 210 0 0 0 0 1 0 (-8) 13 0 0 0 0 0 0;
T 0 (-510) 0 0 0 0 0 0 6 (-8) 0 0 0 0 0 (-2);
T 0 507 0 2 0 0 1 0 0 0 0 0 0 0 0 0;
T 90 (-410) 0 0 0 0 1 0 0 0 0 (-2) 5 0 0 0;
T (-500) 0 0 0 0 0 0 0 3 (-2) 0 0 0 0 0 2;
T 0 (-500) 3 0 0 0 0 0 0 0 0 0 0 0 0 0;
T 0 500 1 (-1) 2 2 1 0 0 0 0 0 0 0 0 0;
T 0 (-500) 1 (-1) (-2) 0 (-1) 0 0 0 0 0 0 0 0 0;
T 0 (-490) 4 0 2 (-2) 2 0 0 0 0 0 0 0 0 0;
T 490 0 0 0 0 0 0 0 2 (-5) 0 0 0 0 0 (-2);
T 0 (-490) 0 0 0 0 0 0 1 (-3) 0 0 0 0 0 (-2);
T 90 390 0 0 0 0 1 0 0 0 0 2 (-5) 0 0 0;
T 0 480 2 1 (-2) (-4) (-2) 0 0 0 0 0 0 0 0 0;
T (-370) (-110) 0 0 0 0 1 0 0 0 0 1 0 0 0 0;
T 0 (-472) 0 2 2 (-2) 1 0 0 0 0 0 0 0 0 0;
T 0 471 1 0 2 0 (-1) 0 0 0 0 0 0 0 0 0;
T 0 (-450) 2 1 0 (-2) 1 0 0 0 0 0 0 0 0 0;
T (-150) (-300) 1 0 0 0 1 0 (-18) 16 0 0 0 0 0 0;
T 0 (-450) 2 (-1) (-2) 0 (-1) 0 0 0 0 0 0 0 0 0;
T 30 (-411) 1 (-1) 0 0 0 0 0 0 0 0 0 0 0 0;
T 0 440 1 2 (-2) (-2) (-2) 0 0 0 0 0 0 0 0 0;
T 0 (-440) 1 (-1) (-2) (-2) (-1) 0 0 0 0 0 0 0 0 0;
T 0 439 2 0 0 (-2) 2 0 0 0 0 0 0 0 0 0;
T 0 (-430) 3 0 0 0 1 0 0 0 0 0 0 0 0 0;
T 0 430 2 0 (-2) 2 (-1) 0 0 0 0 0 0 0 0 0;
T 0 (-430) 0 1 2 2 1 0 0 0 0 0 0 0 0 0;
T 20 403 1 0 (-2) 0 0 0 0 0 0 0 0 0 0 0;
T 20 400 0 2 (-2) 0 (-2) 0 0 0 0 0 0 0 0 0;
T (-60) 350 0 0 1 (-1) 1 0 0 (-1) 0 0 1 0 0 0;
T 0 410 3 0 (-2) 0 (-1) 0 0 0 0 0 0 0 0 0;
T 0 400 1 0 (-4) 2 (-2) 0 0 0 0 0 0 0 0 0;
T 0 (-400) 0 1 (-2) 1 (-2) 0 0 0 0 0 0 0 0 0;
T 0 (-391) 1 0 0 (-4) 0 0 0 0 0 0 0 0 0 0;
T 190 200 0 0 0 0 1 0 0 1 (-2) 0 0 0 0 0;
T 0 390 2 (-1) 2 2 2 0 0 0 0 0 0 0 0 0;
T 0 390 0 1 (-2) (-4) (-2) 0 0 0 0 0 0 0 0 0;
T 0 (-390) 1 0 (-2) (-3) (-2) 0 0 0 0 0 0 0 0 0;
T 310 (-80) 0 0 0 0 0 0 2 (-4) 0 0 0 0 0 (-1);
T 0 390 2 (-1) 2 0 1 0 0 0 0 0 0 0 0 0;
T 0 390 2 0 0 0 2 0 0 0 0 0 0 0 0 0;
T 0 380 0 0 0 0 0 0 0 2 0 0 0 0 0 2;
T (-20) 351 1 1 0 0 0 0 0 0 0 0 0 0 0 0;
T 0 (-360) 1 0 (-2) (-1) (-2) 0 0 0 0 0 0 0 0 0;
T (-210) 150 0 0 0 0 0 0 0 1 0 2 0 0 0 2;
T 0 (-360) 1 1 (-2) 1 (-1) 0 0 0 0 0 0 0 0 0;
T 70 280 0 0 0 0 0 0 3 (-7) 0 0 0 0 0 (-2);
T (-280) 70 0 0 0 0 0 0 0 0 0 1 0 0 0 (-1);
T 0 (-350) 0 0 0 0 0 0 0 2 0 0 0 0 0 0;
T (-290) (-60) 0 0 0 0 0 0 2 (-2) 0 0 0 0 0 (-1);
T 0 (-340) 1 (-1) 0 (-2) 1 0 0 0 0 0 0 0 0 0;
T 0 340 2 0 (-4) 0 (-2) 0 0 0 0 0 0 0 0 0;
T 0 336 0 0 2 0 3 0 0 0 0 0 0 0 0 0;
T 50 280 2 0 0 (-2) (-1) 0 0 (-2) 0 3 0 0 0 0;
T 260 (-70) 0 0 0 0 0 0 3 (-5) 0 0 0 0 0 (-1);
T 100 (-230) 0 0 0 0 0 0 0 0 0 1 0 0 0 2;
T 0 (-330) 2 1 2 0 1 0 0 0 0 0 0 0 0 0;
T 0 330 1 1 (-2) 0 (-1) 0 0 0 0 0 0 0 0 0;
T 0 323 0 2 0 0 (-1) 0 0 0 0 0 0 0 0 0;
T 0 320 1 (-1) 2 (-2) 2 0 0 0 0 0 0 0 0 0;
T 0 (-320) 0 2 2 0 2 0 0 0 0 0 0 0 0 0;
T 0 (-320) 0 0 0 0 0 0 7 (-9) 0 0 0 0 0 (-2);
T 0 320 0 0 0 0 0 0 0 0 2 0 0 0 0 2;
T 290 (-30) 0 0 0 0 0 0 0 0 0 1 0 0 0 1;
T 8 305 0 0 2 (-2) 3 0 0 0 0 0 0 0 0 0;
T (-70) (-240) 0 0 0 0 0 0 3 (-3) 0 0 0 0 0 2;
T 0 (-308) 1 0 2 (-4) 2 0 0 0 0 0 0 0 0 0;
T 0 300 2 0 2 (-1) 2 0 0 0 0 0 0 0 0 0;
T (-160) 140 1 0 0 (-1) 1 0 0 (-1) 0 2 0 0 0 0;
T (-290) (-10) 0 0 0 0 0 0 4 (-7) 0 0 0 0 0 (-2);
T 0 (-290) 2 0 0 (-2) 1 0 0 (-2) 0 2 0 0 0 0;
T (-250) 40 0 0 1 (-1) 1 0 0 (-2) 2 0 0 0 0 0;
T 40 (-250) 0 0 0 0 0 0 0 0 0 0 1 0 0 1;
T 0 (-290) 1 0 2 1 1 0 0 0 0 0 0 0 0 0;
T 0 289 0 1 (-2) 2 0 0 0 0 0 0 0 0 0 0;
T 0 (-280) 2 1 (-2) (-2) (-2) 0 0 0 0 0 0 0 0 0;
T (-250) 30 0 0 1 (-1) 1 0 0 (-1) 0 1 0 0 0 0;
T (-250) (-30) 0 0 0 0 0 0 0 1 (-2) 0 0 0 0 (-1);
T 0 (-270) 0 0 2 (-2) 1 0 0 (-2) 0 2 0 0 0 0;
T 270 0 1 0 (-1) 0 (-3) 0 0 0 0 0 0 0 0 0;
T 0 (-260) 0 1 0 1 1 0 0 0 0 0 0 0 0 0;
T 0 (-260) 0 1 0 2 (-1) 0 0 0 0 0 0 0 0 0;
T 0 260 3 (-1) 2 0 2 0 0 0 0 0 0 0 0 0;
T 210 50 0 0 1 (-1) 1 0 (-3) 4 0 0 0 0 0 0;
T 0 250 0 1 0 1 (-1) 0 0 0 0 0 0 0 0 0;
T 80 170 0 0 0 0 0 0 0 0 0 0 1 0 0 (-1);
T 190 (-60) 0 0 0 0 0 0 0 6 (-16) 4 5 0 0 (-2);
T 0 (-250) 2 0 0 0 (-2) 0 0 0 0 0 0 0 0 0;
T 0 (-240) 2 0 0 2 0 0 0 0 0 0 0 0 0 0;
T 0 240 2 0 0 2 (-1) 0 0 0 0 0 0 0 0 0;
T 0 (-240) 1 1 (-2) 2 (-1) 0 0 0 0 0 0 0 0 0;
T 0 240 1 0 2 (-3) 1 0 0 0 0 0 0 0 0 0;
T (-190) 50 0 0 0 0 0 0 5 (-7) 0 0 0 0 0 (-1);
T (-10) (-230) 2 0 0 (-4) 0 0 0 0 0 0 0 0 0 0;
T 0 230 1 1 2 (-4) 1 0 0 0 0 0 0 0 0 0;
T 0 (-230) 3 1 2 0 2 0 0 0 0 0 0 0 0 0;
T (-140) 90 0 0 0 0 0 0 0 0 4 0 0 0 0 2;
T (-10) (-220) 0 0 0 0 0 0 8 (-10) 0 0 0 0 0 (-2);
T (-20) (-200) 0 0 0 1 0 0 0 0 0 0 0 0 0 0;
T 0 220 1 (-2) 2 0 2 0 0 0 0 0 0 0 0 0;
T 0 (-220) 2 (-1) 2 (-2) 2 0 0 0 0 0 0 0 0 0;
T 0 220 1 1 2 1 2 0 0 0 0 0 0 0 0 0;
T 0 220 0 0 0 0 0 0 0 2 (-4) 0 0 0 0 (-2);
T (-180) (-40) 0 0 0 0 0 0 3 (-3) 0 0 0 0 0 (-1);
T 0 220 0 1 2 1 1 0 0 0 0 0 0 0 0 0;
T 0 220 4 0 2 0 1 0 0 0 0 0 0 0 0 0;
T (-170) 40 0 0 0 0 0 0 1 (-1) 0 0 0 0 0 1;
T (-80) (-130) 0 0 0 0 0 0 0 5 (-4) 0 0 0 0 2;
T (-130) (-80) 0 0 0 0 0 0 0 4 (-4) 0 0 0 0 2;
T 0 210 1 0 (-2) 1 (-2) 0 0 0 0 0 0 0 0 0;
T 0 210 1 (-1) 2 (-2) 1 0 0 0 0 0 0 0 0 0;
T 0 (-210) 1 0 4 (-2) 1 0 0 0 0 0 0 0 0 0;
T 0 (-210) 2 1 2 (-2) 1 0 0 0 0 0 0 0 0 0;
T 0 210 1 0 2 (-1) 1 0 0 0 0 0 0 0 0 0;
T 0 (-200) 1 0 2 (-2) (-1) 0 0 0 0 0 0 0 0 0;
T 0 200 1 0 (-2) 2 1 0 0 0 0 0 0 0 0 0;
T 0 200 1 (-1) 0 2 (-1) 0 0 0 0 0 0 0 0 0;
T 0 200 2 (-2) 0 (-2) (-1) 0 0 0 0 0 0 0 0 0;
T 0 (-200) 1 2 2 (-2) 2 0 0 0 0 0 0 0 0 0;
T 200 0 0 0 0 0 0 0 6 (-9) 0 0 0 0 0 (-2);
T 110 (-90) 0 0 0 0 0 0 0 0 0 2 (-5) 0 0 (-2);
T 160 (-40) 0 0 0 0 0 0 1 (-3) 0 0 0 0 0 (-1);
T 0 (-191) 1 0 (-2) (-2) 0 0 0 0 0 0 0 0 0 0;
T 0 (-190) 0 0 0 4 0 0 0 0 0 0 0 0 0 0;
T 0 190 0 0 4 (-4) 2 0 0 0 0 0 0 0 0 0;
T 0 (-190) 3 0 (-2) (-2) (-2) 0 0 0 0 0 0 0 0 0;
T 0 190 2 (-1) 0 (-2) 1 0 0 0 0 0 0 0 0 0;
T 150 40 0 0 1 (-1) 1 0 (-4) 5 0 0 0 0 0 0;
T (-150) (-40) 0 0 0 0 0 0 0 2 0 0 0 0 0 1;
T (-140) (-50) 0 0 1 (-1) 1 0 0 (-1) 0 (-4) 10 0 0 0;
T (-100) 90 0 0 1 (-1) 1 0 0 (-1) 0 0 0 0 2 0;
T 0 (-190) 2 0 2 1 2 0 0 0 0 0 0 0 0 0;
T (-30) 160 0 0 0 0 0 0 0 4 0 (-3) 0 0 0 2;
T 0 190 0 0 0 4 (-1) 0 0 0 0 0 0 0 0 0;
T 0 190 1 (-1) 0 2 1 0 0 0 0 0 0 0 0 0;
T 0 (-180) 2 (-1) 0 0 1 0 0 0 0 0 0 0 0 0;
T 0 (-180) 2 0 (-4) (-2) (-2) 0 0 0 0 0 0 0 0 0;
T (-110) 70 0 0 0 0 0 0 0 2 (-4) 0 0 0 0 (-1);
T 20 (-160) 0 0 0 0 0 0 2 (-3) 0 0 0 0 0 (-1);
T 0 180 2 0 (-2) (-6) (-2) 0 0 0 0 0 0 0 0 0;
T 0 (-171) 0 0 2 2 0 0 0 0 0 0 0 0 0 0;
T (-120) (-50) 0 0 2 (-2) 1 0 0 (-9) 13 0 0 0 0 0;
T 150 20 0 0 1 1 1 0 0 1 0 0 0 0 0 0;
T (-60) (-110) 1 0 2 0 1 0 0 (-2) 0 3 0 0 0 0;
T 60 110 1 0 (-2) 0 (-1) 0 0 (-1) 0 0 0 0 0 0;
T (-60) (-110) 0 0 0 0 0 0 0 4 (-3) 0 0 0 0 2;
T (-110) 60 0 0 0 0 1 0 0 (-2) 4 0 0 0 0 0;
T (-170) 0 0 0 0 0 1 0 2 (-3) 0 0 0 0 0 0;
T 0 160 0 1 (-2) 2 1 0 0 0 0 0 0 0 0 0;
T 0 (-160) 2 0 4 (-2) 2 0 0 0 0 0 0 0 0 0;
T 0 (-160) 0 0 2 3 2 0 0 0 0 0 0 0 0 0;
T 120 (-40) 0 0 0 0 0 0 0 0 0 3 0 0 0 1;
T (-50) (-110) 2 0 2 0 2 0 0 2 0 (-3) 0 0 0 0;
T 60 100 0 0 0 0 0 0 0 3 (-6) 0 0 0 0 (-2);
T (-130) (-30) 0 0 0 0 0 0 4 (-4) 0 0 0 0 0 (-1);
T 30 (-130) 0 0 0 0 0 0 0 1 (-2) 0 0 0 0 1;
T 0 160 1 0 0 4 1 0 0 0 0 0 0 0 0 0;
T 0 (-160) 1 1 0 2 1 0 0 0 0 0 0 0 0 0;
T 0 (-160) 0 0 4 0 1 0 0 0 0 0 0 0 0 0;
T 110 (-50) 0 0 1 (-1) 2 0 0 (-1) 0 0 2 0 0 0;
T 0 (-150) 1 (-1) 0 2 0 0 0 0 0 0 0 0 0 0;
T 0 (-150) 0 1 2 (-2) (-1) 0 0 0 0 0 0 0 0 0;
T 0 150 2 (-1) 0 0 (-1) 0 0 0 0 0 0 0 0 0;
T 0 (-150) 1 0 0 1 (-1) 0 0 0 0 0 0 0 0 0;
T 0 (-150) 1 2 0 (-2) (-1) 0 0 0 0 0 0 0 0 0;
T 150 0 1 0 0 (-1) 1 0 (-3) 4 0 0 0 0 0 0;
T 0 (-150) 0 1 4 (-2) 2 0 0 0 0 0 0 0 0 0;
T 130 (-20) 0 0 0 0 1 0 0 0 0 0 1 0 0 0;
T 0 (-150) 0 0 0 0 0 0 9 (-11) 0 0 0 0 0 (-2);
T (-120) (-30) 0 0 0 0 0 0 1 1 0 0 0 0 0 1;
T (-140) 10 0 0 0 0 0 0 0 4 0 (-1) 0 0 0 2;
T (-50) 100 0 0 2 0 2 0 0 1 0 0 0 0 0 0;
T (-50) 100 0 0 0 0 0 0 0 1 (-8) 3 0 0 0 (-2);
T 20 (-130) 0 0 0 0 0 0 0 1 0 (-4) 0 0 0 (-2);
T 0 150 1 1 (-2) (-4) (-1) 0 0 0 0 0 0 0 0 0;
T 0 150 1 0 0 (-1) (-2) 0 0 0 0 0 0 0 0 0;
T 0 150 0 0 0 0 1 0 1 (-1) 0 0 0 0 0 0;
T 0 149 2 0 2 (-4) 2 0 0 0 0 0 0 0 0 0;
T 0 (-141) 2 0 2 0 0 0 0 0 0 0 0 0 0 0;
T 0 141 0 1 0 2 0 0 0 0 0 0 0 0 0 0;
T 0 (-140) 0 0 2 (-3) 1 0 0 0 0 0 0 0 0 0;
T 0 (-140) 1 (-2) (-2) (-2) (-2) 0 0 0 0 0 0 0 0 0;
T 0 140 1 0 (-2) (-6) (-2) 0 0 0 0 0 0 0 0 0;
T 0 (-140) 0 0 2 (-2) 1 0 (-4) 4 0 0 0 0 0 0;
T 110 (-30) 0 0 1 (-1) 1 0 (-1) 0 0 0 0 0 0 0;
T 0 (-140) 3 0 (-2) (-2) (-1) 0 0 0 0 0 0 0 0 0;
T 0 140 1 0 2 4 1 0 0 0 0 0 0 0 0 0;
T 140 0 0 0 1 0 2 0 0 0 0 0 0 0 0 0;
T (-30) 110 0 0 0 0 1 0 (-3) 5 0 0 0 0 0 0;
T 20 120 2 (-1) 0 (-2) 0 0 0 0 0 0 0 0 0 0;
T (-130) 0 1 0 0 (-1) (-1) 0 (-3) 4 0 0 0 0 0 0;
T 0 (-130) 1 (-1) (-2) (-4) (-2) 0 0 0 0 0 0 0 0 0;
T 0 130 1 (-2) 2 2 2 0 0 0 0 0 0 0 0 0;
T (-70) (-60) 0 0 1 (-1) 1 0 8 (-14) 0 0 0 0 0 0;
T (-80) 50 0 0 1 (-1) 1 0 3 (-6) 0 0 0 0 0 0;
T (-20) (-110) 0 0 0 0 0 0 6 (-10) 0 0 0 0 0 (-2);
T 110 20 0 0 0 0 0 0 0 2 0 (-2) 0 0 0 1;
T 0 (-130) 3 1 2 (-2) 2 0 0 0 0 0 0 0 0 0;
T 0 (-130) 1 0 (-4) (-2) (-2) 0 0 0 0 0 0 0 0 0;
T 0 (-130) 0 0 0 0 0 0 3 (-1) 0 0 0 0 0 2;
T 0 (-130) 0 0 0 0 0 0 0 3 0 0 (-1) 0 0 2;
T 0 (-129) 0 0 2 (-4) 2 0 0 0 0 0 0 0 0 0;
T 0 120 1 2 0 (-2) 1 0 0 0 0 0 0 0 0 0;
T 0 (-120) 2 1 0 0 (-1) 0 0 0 0 0 0 0 0 0;
T (-40) (-80) 0 0 0 0 1 0 0 8 (-15) 0 0 0 0 0;
T 0 120 2 0 2 4 2 0 0 0 0 0 0 0 0 0;
T 120 0 0 0 0 0 0 0 3 (-6) 0 0 0 0 0 (-2);
T (-70) (-50) 0 0 1 (-1) 1 0 0 (-3) 4 0 0 0 0 0;
T (-100) 20 0 0 0 0 0 0 6 (-8) 0 0 0 0 0 (-1);
T (-100) 20 0 0 0 0 0 0 2 1 0 0 0 0 0 2;
T 20 (-100) 0 0 0 0 0 0 2 1 0 0 0 0 0 1;
T 40 80 0 0 0 0 0 0 0 1 (-4) 0 0 0 0 (-2);
T (-40) 80 0 0 0 0 0 0 0 0 3 0 0 0 0 2;
T 0 (-120) 1 1 2 2 1 0 0 0 0 0 0 0 0 0;
T 0 115 0 0 0 0 3 0 0 0 0 0 0 0 0 0;
T 0 110 2 1 0 0 1 0 0 0 0 0 0 0 0 0;
T (-20) 90 2 0 0 (-2) 1 0 (-6) 8 0 0 0 0 0 0;
T (-110) 0 0 0 3 0 3 0 0 0 0 0 0 0 0 0;
T 0 (-110) 2 1 2 2 2 0 0 0 0 0 0 0 0 0;
T (-110) 0 1 0 1 0 1 0 0 0 0 0 0 0 0 0;
T 0 110 2 (-1) (-2) (-2) (-2) 0 0 0 0 0 0 0 0 0;
T 0 110 3 0 2 (-4) 2 0 0 0 0 0 0 0 0 0;
T 0 110 0 0 0 0 0 0 0 7 (-8) 3 0 0 0 2;
T 60 (-50) 0 0 0 0 0 0 0 0 0 0 0 0 2 1;
T (-90) (-20) 0 0 0 0 0 0 5 (-5) 0 0 0 0 0 (-1);
T (-40) (-70) 0 0 0 0 0 0 0 4 (-7) 0 0 0 0 (-2);
T (-50) 60 1 (-2) 2 (-2) 1 0 0 0 0 0 0 0 0 0;
T 0 110 3 0 2 2 1 0 0 0 0 0 0 0 0 0;
T 0 (-110) 1 (-1) (-2) 2 (-2) 0 0 0 0 0 0 0 0 0;
T 0 100 0 0 0 0 1 0 (-1) 1 0 0 0 0 0 0;
T 100 0 0 0 0 0 1 0 (-2) 3 0 0 0 0 0 0;
T 80 (-20) 0 0 0 0 1 0 0 0 0 (-1) 0 0 0 0;
T 0 100 1 0 0 1 1 0 0 0 0 0 0 0 0 0;
T 0 100 0 2 0 (-2) 1 0 0 0 0 0 0 0 0 0;
T 0 (-100) 3 0 0 (-4) (-1) 0 0 0 0 0 0 0 0 0;
T (-100) 0 1 0 1 (-2) 1 0 0 0 0 0 0 0 0 0;
T 0 100 1 (-1) 2 4 2 0 0 0 0 0 0 0 0 0;
T 100 0 0 0 1 (-1) 1 0 0 (-9) 15 0 0 0 0 0;
T 100 0 0 0 0 0 0 0 7 (-10) 0 0 0 0 0 (-2);
T (-80) (-20) 0 0 0 0 0 0 2 0 0 0 0 0 0 1;
T 40 60 0 0 0 0 0 0 3 (-5) 4 0 0 0 0 2;
T (-40) (-60) 0 0 0 0 0 0 3 (-9) 4 0 0 0 0 (-2);
T 0 (-100) 1 0 4 0 2 0 0 0 0 0 0 0 0 0;
T 0 100 0 1 2 (-4) 1 0 0 0 0 0 0 0 0 0;
T 0 100 1 0 (-4) 2 (-1) 0 0 0 0 0 0 0 0 0;
T 0 100 0 2 (-2) (-2) (-1) 0 0 0 0 0 0 0 0 0;
T 0 100 2 0 (-2) 0 2 0 0 0 0 0 0 0 0 0;
T 0 (-100) 1 0 0 2 2 0 0 0 0 0 0 0 0 0;
T 0 91 1 0 2 (-2) 0 0 0 0 0 0 0 0 0 0;
T 10 80 1 (-1) 0 (-2) 0 0 0 0 0 0 0 0 0 0;
T 0 90 1 0 (-2) (-2) 1 0 0 0 0 0 0 0 0 0;
T 0 90 0 1 0 (-2) (-2) 0 0 0 0 0 0 0 0 0;
T 0 (-90) 2 0 0 (-2) 1 0 (-3) 3 0 0 0 0 0 0;
T 0 (-90) 1 2 2 0 2 0 0 0 0 0 0 0 0 0;
T (-70) (-20) 0 0 0 0 0 0 6 (-6) 0 0 0 0 0 (-1);
T 70 (-20) 0 0 0 0 0 0 1 2 0 0 0 0 0 2;
T (-30) 60 0 0 0 0 0 0 0 8 (-15) 0 0 0 0 (-2);
T 0 90 5 0 2 0 2 0 0 0 0 0 0 0 0 0;
T 0 90 3 0 (-2) (-6) (-2) 0 0 0 0 0 0 0 0 0;
T 0 (-90) 0 0 1 (-1) 1 0 (-2) 2 0 0 0 0 0 0;
T (-50) (-40) 0 0 0 0 0 0 0 3 0 (-3) 0 0 0 2;
T (-90) 0 0 0 0 0 0 0 0 2 0 0 (-1) 0 0 2;
T 0 (-90) 1 (-1) 2 (-1) 2 0 0 0 0 0 0 0 0 0;
T 0 90 1 0 (-2) 4 (-1) 0 0 0 0 0 0 0 0 0;
T 0 90 2 1 (-2) (-4) (-1) 0 0 0 0 0 0 0 0 0;
T 0 (-90) 4 0 2 (-2) 1 0 0 0 0 0 0 0 0 0;
T 0 (-90) 1 (-1) 0 (-1) 0 0 0 0 0 0 0 0 0 0;
T 0 (-80) 2 (-1) 0 0 0 0 0 0 0 0 0 0 0 0;
T 0 80 3 0 0 (-2) (-1) 0 0 0 0 0 0 0 0 0;
T 0 (-80) 2 (-1) (-2) (-4) (-2) 0 0 0 0 0 0 0 0 0;
T 10 70 0 0 0 0 0 0 7 (-11) 0 0 0 0 0 (-2);
T (-70) 10 0 0 0 0 0 0 2 (-2) 0 0 0 0 0 1;
T (-60) 20 0 0 0 0 0 0 7 (-9) 0 0 0 0 0 (-1);
T 20 60 0 0 0 0 0 0 4 (-7) 0 0 0 0 0 (-1);
T 0 80 0 0 4 (-4) 1 0 0 0 0 0 0 0 0 0;
T (-50) 30 0 0 0 0 0 0 3 (-5) 0 0 0 0 0 1;
T (-50) (-30) 0 0 0 0 0 0 0 5 (-5) 0 0 0 0 2;
T (-50) (-30) 0 0 0 0 0 0 0 5 (-9) 0 0 0 0 (-2);
T 0 (-80) 0 0 0 0 0 0 0 3 (-1) 0 0 0 0 2;
T (-30) 50 0 0 0 0 0 0 0 2 0 2 (-5) 0 0 2;
T (-80) 0 0 0 0 0 0 0 0 2 0 0 1 0 0 2;
T (-30) (-50) 0 0 0 0 0 0 0 2 0 (-2) 5 0 0 2;
T (-30) 50 0 0 0 0 1 0 (-3) 7 (-4) 0 0 0 0 0;
T (-30) (-50) 0 0 0 0 1 0 3 (-7) 4 0 0 0 0 0;
T 0 80 0 1 0 (-4) (-1) 0 0 0 0 0 0 0 0 0;
T 0 (-80) 3 0 (-2) 0 (-2) 0 0 0 0 0 0 0 0 0;
T 0 (-80) 1 0 (-2) (-3) (-1) 0 0 0 0 0 0 0 0 0;
T 0 (-80) 0 1 (-2) 1 (-1) 0 0 0 0 0 0 0 0 0;
T 0 80 1 2 (-2) (-2) (-1) 0 0 0 0 0 0 0 0 0;
T 0 80 1 1 0 (-2) (-2) 0 0 0 0 0 0 0 0 0;
T 0 (-80) 0 0 0 0 1 0 0 1 0 (-1) 0 0 0 0;
T 0 76 1 0 2 0 3 0 0 0 0 0 0 0 0 0;
T 0 70 3 0 0 (-4) 1 0 0 0 0 0 0 0 0 0;
T 10 (-60) 2 0 0 (-2) (-1) 0 (-6) 8 0 0 0 0 0 0;
T 0 70 0 1 (-4) 2 (-2) 0 0 0 0 0 0 0 0 0;
T 70 0 0 0 1 (-1) 1 0 0 (-1) 0 (-1) 1 0 0 0;
T 0 (-70) 0 0 0 0 1 0 3 (-5) 0 2 0 0 0 0;
T 0 (-70) 0 1 2 4 2 0 0 0 0 0 0 0 0 0;
T 0 70 4 0 2 2 2 0 0 0 0 0 0 0 0 0;
T 0 (-70) 2 0 (-2) (-3) (-2) 0 0 0 0 0 0 0 0 0;
T (-70) 0 0 0 1 (-1) 1 0 2 (-4) 0 (-3) 0 0 0 0;
T (-50) 20 0 0 1 (-1) 1 0 0 (-1) 0 3 0 0 0 0;
T (-20) (-50) 0 0 0 0 0 0 9 (-9) 0 0 0 0 0 (-1);
T 50 (-20) 0 0 0 0 0 0 2 (-3) 0 0 0 0 0 (-2);
T 20 50 0 0 0 0 0 0 0 11 0 0 0 0 0 2;
T (-20) (-50) 0 0 0 0 0 0 0 6 (-15) 0 0 0 0 (-2);
T 50 (-20) 0 0 0 0 0 0 0 3 0 2 (-5) 0 0 2;
T (-50) 20 0 0 0 0 0 0 0 3 0 1 0 0 0 2;
T 0 (-70) 0 0 0 0 0 0 0 3 (-5) 0 0 0 0 (-2);
T 0 (-70) 0 0 0 0 0 0 0 2 0 (-4) 0 0 0 (-2);
T 70 0 0 0 0 0 0 0 0 0 0 0 3 0 0 2;
T (-60) (-10) 0 0 0 0 0 0 3 (-1) 0 0 0 0 0 1;
T 60 (-10) 0 0 0 0 0 0 3 (-3) 0 0 0 0 0 1;
T 40 30 0 0 0 0 0 0 0 4 (-8) 0 0 0 0 (-2);
T 0 70 1 0 0 1 0 0 0 0 0 0 0 0 0 0;
T 70 0 0 0 1 (-1) 2 0 0 (-2) 2 0 0 0 0 0;
T 0 70 2 (-1) 2 2 1 0 0 0 0 0 0 0 0 0;
T 0 70 0 1 (-2) (-4) (-1) 0 0 0 0 0 0 0 0 0;
T 0 70 1 (-1) 0 0 2 0 0 0 0 0 0 0 0 0;
T 0 (-60) 0 0 0 0 1 0 0 (-1) 0 1 0 0 0 0;
T 0 60 0 0 2 2 (-1) 0 0 0 0 0 0 0 0 0;
T 10 (-50) 0 0 1 (-1) (-1) 0 0 0 (-2) 0 0 0 0 0;
T 0 60 2 1 0 0 0 0 0 0 0 0 0 0 0 0;
T 40 20 0 0 0 0 1 0 0 2 (-4) 0 0 0 0 0;
T 0 60 1 0 0 (-4) (-2) 0 0 0 0 0 0 0 0 0;
T 0 (-60) 2 1 0 (-4) (-1) 0 0 0 0 0 0 0 0 0;
T 0 60 1 1 0 (-4) 1 0 0 0 0 0 0 0 0 0;
T 0 (-60) 0 1 0 1 0 0 0 0 0 0 0 0 0 0;
T 0 (-60) 1 (-1) 2 (-4) 1 0 0 0 0 0 0 0 0 0;
T 50 10 0 0 1 (-1) 1 0 (-2) 3 0 0 0 0 0 0;
T (-50) (-10) 0 0 0 0 0 0 7 (-7) 0 0 0 0 0 (-1);
T (-10) (-50) 0 0 0 0 0 0 4 (-4) 0 0 0 0 0 2;
T 10 50 0 0 0 0 0 0 1 (-2) 0 0 0 0 0 1;
T 50 (-10) 0 0 0 0 0 0 0 5 0 (-2) 0 0 0 2;
T (-10) 50 0 0 0 0 0 0 0 3 (-6) 0 0 0 0 (-1);
T 0 (-60) 2 0 0 (-2) (-1) 0 0 (-2) 0 0 5 0 0 0;
T (-40) 20 2 0 (-1) (-1) (-1) 0 0 (-1) 0 3 0 0 0 0;
T 0 (-60) 1 0 (-2) (-2) (-2) 0 0 (-2) 0 2 0 0 0 0;
T 60 0 0 0 2 (-2) 2 0 (-8) 11 0 0 0 0 0 0;
T 0 (-60) 0 0 2 (-2) 1 0 (-2) 2 0 0 0 0 0 0;
T 20 40 0 0 1 (-1) 1 0 0 (-1) 0 0 3 0 0 0;
T (-40) 20 0 0 0 0 0 1 0 (-4) 0 0 0 0 0 (-2);
T 30 30 0 0 0 0 0 0 8 (-13) 0 0 0 0 0 1;
T 40 (-20) 0 0 0 0 0 0 0 6 0 0 0 0 0 2;
T (-40) (-20) 0 0 0 0 0 0 0 6 (-6) 0 0 0 0 2;
T 0 60 0 0 0 0 0 0 0 1 1 0 0 0 0 2;
T 0 60 0 0 0 0 0 0 0 1 0 0 1 0 0 2;
T 40 20 0 0 0 0 0 0 0 1 (-5) 0 0 0 0 (-2);
T (-20) (-40) 0 0 0 0 0 0 0 0 0 0 3 0 0 1;
T 0 60 4 0 (-2) (-2) (-1) 0 0 0 0 0 0 0 0 0;
T 0 (-60) 0 0 0 3 1 0 0 0 0 0 0 0 0 0;
T 0 60 3 0 0 2 1 0 0 0 0 0 0 0 0 0;
T 0 60 1 1 0 (-4) (-1) 0 0 0 0 0 0 0 0 0;
T 0 (-60) 0 0 0 1 2 0 0 0 0 0 0 0 0 0;
T 0 (-60) 1 1 0 (-2) 2 0 0 0 0 0 0 0 0 0;
T 0 (-60) 2 0 (-2) 2 (-2) 0 0 0 0 0 0 0 0 0;
T 0 (-50) 1 1 0 (-4) 0 0 0 0 0 0 0 0 0 0;
T 0 50 2 0 2 0 (-1) 0 0 0 0 0 0 0 0 0;
T 10 40 2 1 0 (-2) 0 0 0 0 0 0 0 0 0 0;
T 0 (-50) 0 1 0 2 2 0 0 0 0 0 0 0 0 0;
T 10 40 0 0 0 0 1 0 3 (-5) 0 0 0 0 0 0;
T 0 50 1 (-2) 2 (-2) 2 0 0 0 0 0 0 0 0 0;
T 0 50 2 1 0 (-4) 1 0 0 0 0 0 0 0 0 0;
T 0 (-50) 1 (-2) 0 0 1 0 0 0 0 0 0 0 0 0;
T 30 (-20) 2 0 0 (-2) 1 0 0 (-6) 8 0 0 0 0 0;
T (-20) 30 2 0 0 (-2) (-1) 0 0 (-5) 6 0 0 0 0 0;
T 20 30 2 0 (-1) (-1) (-1) 0 0 3 (-7) 0 0 0 0 0;
T 40 (-10) 0 0 2 0 2 0 0 (-4) 8 (-3) 0 0 0 0;
T 40 10 0 0 2 0 2 0 0 4 (-8) 3 0 0 0 0;
T 0 (-50) 0 1 (-2) (-1) (-2) 0 0 0 0 0 0 0 0 0;
T 0 (-50) 3 (-1) 2 (-2) 2 0 0 0 0 0 0 0 0 0;
T 30 20 0 0 0 0 0 0 1 0 0 0 0 0 0 2;
T (-30) 20 0 0 0 0 0 0 0 7 (-13) 0 0 0 0 (-2);
T 20 30 0 0 0 0 0 0 0 2 (-5) 0 0 0 0 (-2);
T (-30) 20 0 0 0 0 0 0 0 1 0 3 0 0 0 2;
T 0 50 3 (-1) 2 2 2 0 0 0 0 0 0 0 0 0;
T 0 50 3 (-1) (-2) (-1) (-2) 0 0 0 0 0 0 0 0 0;
T 0 50 0 0 2 6 2 0 0 0 0 0 0 0 0 0;
T (-50) 0 0 0 1 (-1) 1 0 0 1 0 0 0 0 0 0;
T 50 0 0 0 0 0 0 0 9 (-12) 0 0 0 0 0 (-2);
T 0 (-50) 0 0 0 0 0 0 6 (-9) 0 0 0 0 0 (-1);
T (-50) 0 0 0 0 0 0 0 4 (-4) 0 0 0 0 0 1;
T (-50) 0 0 0 0 0 0 0 0 6 (-11) 0 0 0 0 (-2);
T 0 50 0 0 0 0 0 0 0 1 (-3) 0 0 0 0 (-2);
T 40 10 0 0 2 (-2) 1 (-1) 0 2 0 0 0 0 0 0;
T (-40) (-10) 0 0 1 (-1) 1 0 0 (-1) 0 0 0 2 0 0;
T 40 (-10) 0 0 0 0 0 0 5 (-6) 0 0 0 0 0 2;
T (-40) 10 0 0 0 0 0 0 5 (-10) 0 0 0 0 0 (-2);
T 10 40 0 0 0 0 0 0 0 5 0 (-3) 0 0 0 2;
T 10 40 0 0 0 0 0 0 0 0 0 4 0 0 0 2;
T (-50) 0 0 0 3 0 2 0 0 0 0 0 0 0 0 0;
T 0 50 2 0 (-4) 0 (-1) 0 0 0 0 0 0 0 0 0;
T 0 (-50) 2 1 (-2) (-2) (-1) 0 0 0 0 0 0 0 0 0;
T 0 50 0 0 2 (-2) 2 0 (-3) 3 0 0 0 0 0 0;
T 0 50 1 0 0 (-1) 2 0 0 0 0 0 0 0 0 0;
T 0 (-50) 1 1 0 0 2 0 0 0 0 0 0 0 0 0;
T 50 0 0 0 2 (-2) 2 0 (-5) 6 0 0 0 0 0 0;
T 0 (-50) 1 0 0 2 (-2) 0 0 0 0 0 0 0 0 0;
T 0 50 1 0 (-2) 2 0 0 0 0 0 0 0 0 0 0;
T 0 (-40) 1 0 2 2 0 0 0 0 0 0 0 0 0 0;
T (-20) 20 0 0 0 0 2 0 0 (-1) 2 0 0 0 0 0;
T (-10) 30 1 1 0 2 0 0 0 0 0 0 0 0 0 0;
T 0 (-40) 1 0 0 4 0 0 0 0 0 0 0 0 0 0;
T 40 0 1 0 (-1) 0 1 0 0 0 0 0 0 0 0 0;
T 0 (-40) 0 2 0 (-2) 0 0 0 0 0 0 0 0 0 0;
T 0 (-40) 1 0 0 (-3) 1 0 0 0 0 0 0 0 0 0;
T 0 40 4 0 0 0 (-1) 0 0 0 0 0 0 0 0 0;
T 0 40 1 (-2) 0 (-2) (-1) 0 0 0 0 0 0 0 0 0;
T (-10) 30 0 0 0 0 1 0 0 (-8) 15 0 0 0 0 0;
T 0 40 1 0 4 (-4) 2 0 0 0 0 0 0 0 0 0;
T 0 (-40) 1 1 0 (-1) 1 0 0 0 0 0 0 0 0 0;
T 0 (-40) 0 0 2 0 2 0 1 (-1) 0 0 0 0 0 0;
T 0 (-40) 1 1 0 2 (-1) 0 0 0 0 0 0 0 0 0;
T 0 40 2 (-2) 2 0 2 0 0 0 0 0 0 0 0 0;
T (-20) (-20) 0 0 1 (-1) 1 0 0 (-1) 0 0 (-2) 0 0 0;
T 20 (-20) 0 0 1 (-1) 1 0 0 (-1) 0 (-2) 4 0 0 0;
T 20 20 0 0 0 0 0 0 0 2 2 0 0 0 0 2;
T (-10) 30 2 (-2) 2 (-2) 2 0 0 0 0 0 0 0 0 0;
T (-30) 10 0 0 0 0 0 0 6 (-10) 0 0 0 0 0 (-1);
T 10 30 0 0 0 0 0 0 0 6 (-5) 0 0 0 0 2;
T (-10) 30 0 0 0 0 0 0 0 2 0 (-2) 0 0 0 2;
T 0 (-40) 5 0 2 (-2) 2 0 0 0 0 0 0 0 0 0;
T 0 40 3 0 2 (-1) 2 0 0 0 0 0 0 0 0 0;
T 0 40 1 2 (-2) (-4) (-2) 0 0 0 0 0 0 0 0 0;
T 0 40 1 (-1) (-2) (-3) (-2) 0 0 0 0 0 0 0 0 0;
T 0 40 0 0 4 (-1) 2 0 0 0 0 0 0 0 0 0;
T 0 (-40) 0 0 2 (-2) 1 0 0 (-2) 0 3 0 0 0 0;
T 0 (-40) 0 0 2 (-2) 1 0 0 (-2) 0 0 2 0 0 0;
T 40 0 0 0 2 (-2) 1 0 0 (-8) 11 0 0 0 0 0;
T (-40) 0 0 0 1 (-1) 1 0 0 (-1) 0 (-1) 2 0 0 0;
T (-40) 0 0 0 0 0 0 0 8 (-8) 0 0 0 0 0 (-1);
T (-40) 0 0 0 0 0 0 0 8 (-10) 0 0 0 0 0 (-1);
T 0 40 0 0 0 0 0 0 5 (-5) 0 0 0 0 0 2;
T 0 (-40) 0 0 0 0 0 0 5 (-9) 0 0 0 0 0 (-2);
T 0 (-40) 0 0 0 0 0 0 4 (-2) 0 0 0 0 0 2;
T (-40) 0 0 0 0 0 0 0 4 (-2) 0 0 0 0 0 1;
T 40 0 0 0 0 0 0 0 4 (-3) 0 0 0 0 0 2;
T 0 (-40) 0 0 0 0 0 0 3 (-4) 0 0 0 0 0 (-1);
T 0 40 0 0 0 0 0 0 3 (-6) 0 0 0 0 0 (-1);
T 0 40 0 0 0 0 0 0 2 (-6) 0 0 0 0 0 (-2);
T 40 0 0 0 0 0 0 0 0 8 (-15) 0 0 0 0 (-1);
T 0 (-40) 0 0 0 0 0 0 0 6 0 0 0 0 0 0;
T (-40) 0 0 0 0 0 0 0 0 5 (-2) 0 0 0 0 2;
T 0 40 0 0 0 0 0 0 0 5 (-3) 0 0 0 0 2;
T 40 0 0 0 0 0 0 0 0 0 0 0 1 0 0 2;
T 0 (-40) 4 0 0 0 0 0 0 0 0 0 0 0 0 0;
T 0 (-40) 1 (-2) (-2) 0 (-2) 0 0 0 0 0 0 0 0 0;
T 0 (-40) 1 2 2 (-2) 1 0 0 0 0 0 0 0 0 0;
T 0 (-40) 0 2 2 0 1 0 0 0 0 0 0 0 0 0;
T 0 (-40) 3 1 2 0 1 0 0 0 0 0 0 0 0 0;
T (-10) 30 0 2 (-2) 0 (-1) 0 0 0 0 0 0 0 0 0;
T 0 40 1 1 2 1 1 0 0 0 0 0 0 0 0 0;
T 0 40 3 (-1) 2 0 1 0 0 0 0 0 0 0 0 0;
T 0 40 2 0 2 (-1) 1 0 0 0 0 0 0 0 0 0;
T 0 (-40) 2 0 0 2 2 0 0 0 0 0 0 0 0 0;
T 40 0 0 0 1 (-1) 2 0 0 (-1) 0 2 0 0 0 0;
T 0 40 0 0 2 (-2) (-2) 0 0 0 0 0 0 0 0 0;
T 21 10 0 0 1 (-1) 2 0 0 (-1) 0 (-2) 5 0 0 0;
T 0 30 2 0 (-4) 2 (-2) 0 0 0 0 0 0 0 0 0;
T (-30) 0 0 0 2 (-2) (-1) 0 (-5) 6 0 0 0 0 0 0;
T 0 (-30) 2 (-2) 0 (-2) 1 0 0 0 0 0 0 0 0 0;
T 0 30 0 0 0 4 2 0 0 0 0 0 0 0 0 0;
T 0 30 2 0 0 (-2) (-1) 0 (-3) 3 0 0 0 0 0 0;
T 20 10 0 0 1 (-1) (-1) 0 0 (-1) 0 (-1) 0 0 0 0;
T 0 (-30) 1 (-2) 0 (-2) 1 0 0 0 0 0 0 0 0 0;
T 0 30 1 (-2) 0 0 (-1) 0 0 0 0 0 0 0 0 0;
T 30 0 0 0 0 0 1 0 0 0 0 0 (-1) 0 0 0;
T 0 30 2 0 0 (-3) (-1) 0 0 0 0 0 0 0 0 0;
T 0 (-30) 2 1 (-2) 0 1 0 0 0 0 0 0 0 0 0;
T (-20) 10 2 0 0 (-2) (-1) 0 0 (-6) 8 0 0 0 0 0;
T (-10) (-20) 2 0 (-1) (-1) 1 0 0 3 (-7) 0 0 0 0 0;
T 0 (-30) 2 1 2 (-4) 1 0 0 0 0 0 0 0 0 0;
T 10 (-20) 1 0 0 (-1) 1 0 0 (-3) 4 0 0 0 0 0;
T 0 30 2 (-1) (-2) 0 (-2) 0 0 0 0 0 0 0 0 0;
T 0 30 0 0 2 0 2 0 (-1) 1 0 0 0 0 0 0;
T 0 (-30) 0 0 2 0 2 0 0 (-1) 0 1 0 0 0 0;
T 0 30 0 0 2 0 2 0 0 1 0 (-1) 0 0 0 0;
T 0 30 0 1 0 (-4) 1 0 0 0 0 0 0 0 0 0;
T (-20) 10 0 0 0 0 1 0 0 (-9) 17 0 0 0 0 0;
T 0 (-30) 1 1 4 (-2) 2 0 0 0 0 0 0 0 0 0;
T (-10) (-20) 2 0 2 0 1 0 0 1 0 0 0 0 0 0;
T (-10) 20 1 0 (-2) 0 (-2) 0 (-10) 3 0 0 0 0 0 0;
T 20 (-10) 0 0 2 (-2) 1 0 0 (-7) 9 0 0 0 0 0;
T (-10) (-20) 0 0 0 0 0 0 2 (-3) 0 0 0 0 0 1;
T 20 10 0 0 0 0 0 0 1 (-2) 0 0 0 0 0 (-2);
T 20 (-10) 0 0 0 0 0 0 1 (-4) 0 0 0 0 0 (-2);
T (-20) (-10) 0 0 0 0 0 0 0 6 (-10) 0 0 0 0 (-2);
T (-10) (-20) 0 0 0 0 0 0 0 5 (-8) 0 0 0 0 (-2);
T 20 (-10) 0 0 0 0 0 0 0 3 (-5) 0 0 0 0 (-1);
T 20 10 0 0 0 0 0 0 0 2 (-6) 0 0 0 0 (-2);
T 0 30 4 0 2 (-4) 2 0 0 0 0 0 0 0 0 0;
T 0 (-30) 2 2 2 (-2) 2 0 0 0 0 0 0 0 0 0;
T 0 30 2 1 2 1 2 0 0 0 0 0 0 0 0 0;
T 0 30 2 0 0 (-2) (-1) 0 0 (-2) 0 4 (-5) 0 0 0;
T 0 (-30) 2 0 0 (-2) (-2) 0 (-3) 3 0 0 0 0 0 0;
T 30 0 2 0 (-1) (-1) (-1) 0 0 (-1) 0 0 0 0 0 0;
T 0 (-30) 1 0 2 3 2 0 0 0 0 0 0 0 0 0;
T 0 30 1 0 2 (-2) 2 0 0 (-2) 0 2 0 0 0 0;
T 30 0 1 0 1 (-1) 1 0 0 (-1) 0 0 0 0 0 0;
T 30 0 1 0 (-1) 1 (-1) 0 (-18) 17 0 0 0 0 0 0;
T 0 (-30) 1 0 (-1) (-1) (-1) 0 20 (-20) 0 0 0 0 0 0;
T 0 (-30) 1 0 (-2) (-2) (-2) 0 (-3) 3 0 0 0 0 0 0;
T 0 (-30) 0 2 2 2 2 0 0 0 0 0 0 0 0 0;
T 0 30 0 2 (-2) (-4) (-2) 0 0 0 0 0 0 0 0 0;
T 0 30 0 1 2 3 2 0 0 0 0 0 0 0 0 0;
T 0 (-30) 0 0 2 (-2) 1 0 0 (-1) 0 1 0 0 0 0;
T 30 0 0 0 1 (-1) 1 0 1 (-2) 0 0 0 0 0 0;
T 30 0 0 0 1 (-1) 1 0 (-2) 1 0 0 0 0 0 0;
T (-30) 0 0 0 0 0 0 0 9 (-11) 0 0 0 0 0 (-1);
T 0 30 0 0 0 0 0 0 8 (-16) 0 0 0 0 0 (-2);
T (-30) 0 0 0 0 0 0 0 5 (-3) 0 0 0 0 0 1;
T 30 0 0 0 0 0 0 0 0 6 0 0 0 0 0 1;
T (-30) 0 0 0 0 0 0 0 0 6 (-7) 0 0 0 0 2;
T 0 30 0 0 0 0 0 0 0 4 0 0 (-2) 0 0 2;
T 30 0 0 0 0 0 0 0 0 4 (-8) 1 5 0 0 (-2);
T (-30) 0 0 0 0 0 0 0 0 3 0 0 (-2) 0 0 2;
T 30 0 0 0 0 0 0 0 0 1 0 (-1) 0 0 0 1;
T 30 0 0 0 0 0 0 0 0 1 0 (-3) 0 0 0 (-1);
T 30 0 0 0 0 0 0 0 0 1 (-6) 0 0 0 0 (-2);
T 0 (-30) 0 0 0 0 0 0 0 0 0 4 (-5) 0 0 2;
T 0 30 0 0 0 0 0 0 0 0 0 0 5 0 0 2;
T 0 30 0 0 0 0 0 0 0 0 0 0 0 2 0 2;
T 30 0 0 0 0 0 0 0 0 0 0 0 0 2 0 1;
T 0 30 0 0 0 0 0 0 0 0 0 0 0 0 2 2;
T 0 (-30) 1 0 0 (-1) (-1) 0 0 (-2) 2 0 0 0 0 0;
T 0 (-30) 2 (-1) 2 (-1) 2 0 0 0 0 0 0 0 0 0;
T 30 0 2 0 (-1) (-1) (-1) 0 0 (-1) 0 2 0 0 0 0;
T 0 30 1 0 0 (-6) (-1) 0 0 0 0 0 0 0 0 0;
T 0 (-30) 1 (-1) 0 (-4) (-1) 0 0 0 0 0 0 0 0 0;
T 0 30 1 0 0 4 (-1) 0 0 0 0 0 0 0 0 0;
T 0 (-30) 3 0 0 (-2) 1 0 0 0 0 0 0 0 0 0;
T 30 0 0 0 0 0 1 0 5 (-8) 0 0 0 0 0 0;
T 0 (-30) 1 (-2) (-2) (-2) (-1) 0 0 0 0 0 0 0 0 0;
T 0 (-30) 0 1 4 (-2) 1 0 0 0 0 0 0 0 0 0;
T 0 (-30) 2 0 4 (-2) 1 0 0 0 0 0 0 0 0 0;
T 0 (-30) 0 0 2 3 1 0 0 0 0 0 0 0 0 0;
T 30 0 0 0 1 (-1) 2 0 0 (-1) 0 1 0 0 0 0;
T 0 30 1 (-2) 2 0 1 0 0 0 0 0 0 0 0 0;
T 0 (-30) 2 (-1) 2 (-2) 1 0 0 0 0 0 0 0 0 0;
T 0 30 2 0 (-2) (-6) (-1) 0 0 0 0 0 0 0 0 0;
T 0 (-30) 2 0 (-4) (-2) (-1) 0 0 0 0 0 0 0 0 0;
T 0 (-30) 2 0 2 1 1 0 0 0 0 0 0 0 0 0;
T 0 30 0 0 1 (-1) 2 0 0 0 (-2) 0 0 0 0 0;
T (-30) 0 0 0 0 0 2 0 0 4 (-8) 3 0 0 0 0;
T (-30) 0 0 0 0 0 2 0 0 (-4) 8 (-3) 0 0 0 0;
T 0 30 0 0 0 1 (-2) 0 0 0 0 0 0 0 0 0;
T 0 (-30) 0 0 2 0 (-2) 0 0 0 0 0 0 0 0 0;
T 0 (-30) 0 1 0 (-2) 2 0 0 0 0 0 0 0 0 0;
T (-20) (-10) 0 0 0 0 1 0 0 1 0 (-2) 0 0 0 0;
T 0 (-30) 0 0 0 0 1 0 2 (-2) 0 0 0 0 0 0;
T 0 (-30) 1 1 2 (-4) 2 0 0 0 0 0 0 0 0 0;
T 0 (-21) 0 1 2 (-2) 3 0 0 0 0 0 0 0 0 0;
T 0 20 2 0 2 (-2) 0 0 0 0 0 0 0 0 0 0;
T 0 (-20) 0 0 0 0 1 0 (-2) 2 0 0 0 0 0 0;
T 0 (-20) 3 0 2 0 0 0 0 0 0 0 0 0 0 0;
T 0 (-20) 0 0 0 0 1 0 0 (-2) 2 0 0 0 0 0;
T 0 (-20) 0 1 0 (-4) 0 0 0 0 0 0 0 0 0 0;
T 20 0 0 0 0 0 1 0 (-3) 4 0 0 0 0 0 0;
T 0 (-20) 3 0 0 2 0 0 0 0 0 0 0 0 0 0;
T 0 20 0 3 0 0 0 0 0 0 0 0 0 0 0 0;
T 0 20 2 0 (-2) (-2) 0 0 0 0 0 0 0 0 0 0;
T 20 0 2 0 2 (-4) 0 0 0 0 0 0 0 0 0 0;
T 0 20 1 0 0 (-3) (-1) 0 0 0 0 0 0 0 0 0;
T 0 (-20) 2 0 2 (-2) (-1) 0 0 0 0 0 0 0 0 0;
T 0 20 1 0 2 (-4) (-1) 0 0 0 0 0 0 0 0 0;
T 0 20 0 0 1 (-1) 2 0 0 (-1) 0 0 1 0 0 0;
T 0 20 1 0 (-2) 1 1 0 0 0 0 0 0 0 0 0;
T 0 (-20) 1 2 0 (-2) 0 0 0 0 0 0 0 0 0 0;
T 0 (-20) 2 0 (-2) (-2) 1 0 0 0 0 0 0 0 0 0;
T 0 (-20) 1 0 0 (-1) 1 0 0 (-1) 0 1 0 0 0 0;
T 0 (-20) 2 0 0 (-3) 1 0 0 0 0 0 0 0 0 0;
T 0 (-20) 1 1 0 1 1 0 0 0 0 0 0 0 0 0;
T 0 20 1 1 0 1 (-1) 0 0 0 0 0 0 0 0 0;
T 0 (-20) 2 0 0 (-1) 1 0 0 0 0 0 0 0 0 0;
T 0 20 1 2 0 0 1 0 0 0 0 0 0 0 0 0;
T 0 (-20) 2 0 0 (-2) 1 0 0 (-5) 6 0 0 0 0 0;
T 0 20 1 0 0 (-2) (-1) 0 0 (-2) 0 2 0 0 0 0;
T 0 (-20) 1 0 0 (-2) 1 0 0 (-2) 0 2 0 0 0 0;
T 0 20 2 0 (-4) 2 (-1) 0 0 0 0 0 0 0 0 0;
T 20 0 0 0 2 (-2) 1 0 0 4 (-8) 3 0 0 0 0;
T 20 0 0 0 2 (-2) 1 0 0 (-4) 8 (-3) 0 0 0 0;
T 0 20 2 (-1) 0 2 (-1) 0 0 0 0 0 0 0 0 0;
T 0 20 1 0 0 (-1) (-1) 0 0 (-3) 4 0 0 0 0 0;
T 10 (-10) 1 (-2) 0 (-2) 0 0 0 0 0 0 0 0 0 0;
T 0 (-20) 2 0 0 (-2) (-1) 0 0 (-2) 0 3 (-1) 0 0 0;
T 0 20 1 (-1) (-4) 2 (-2) 0 0 0 0 0 0 0 0 0;
T 0 20 3 0 0 2 (-1) 0 0 0 0 0 0 0 0 0;
T 0 20 1 0 0 (-3) 0 0 0 0 0 0 0 0 0 0;
T 0 20 2 0 2 (-6) 1 0 0 0 0 0 0 0 0 0;
T 0 20 2 (-1) (-2) 2 (-1) 0 0 0 0 0 0 0 0 0;
T 0 20 1 (-2) (-2) 2 (-1) 0 0 0 0 0 0 0 0 0;
T 0 20 2 0 4 (-4) 2 0 0 0 0 0 0 0 0 0;
T 20 0 2 0 (-1) (-1) (-2) 0 0 (-1) 0 2 0 0 0 0;
T 0 (-20) 4 1 2 0 2 0 0 0 0 0 0 0 0 0;
T 0 20 4 (-1) 2 0 2 0 0 0 0 0 0 0 0 0;
T 0 (-20) 4 (-1) (-2) (-2) (-2) 0 0 0 0 0 0 0 0 0;
T 0 (-20) 3 0 4 (-2) 2 0 0 0 0 0 0 0 0 0;
T 0 (-20) 3 0 2 1 2 0 0 0 0 0 0 0 0 0;
T 0 20 3 0 (-2) 2 (-1) 0 0 0 0 0 0 0 0 0;
T 0 (-20) 3 0 (-2) (-1) (-1) 0 0 0 0 0 0 0 0 0;
T 0 20 2 2 (-2) (-4) (-2) 0 0 0 0 0 0 0 0 0;
T 0 (-20) 2 1 0 (-4) 0 0 0 0 0 0 0 0 0 0;
T 0 20 2 1 (-2) (-6) (-2) 0 0 0 0 0 0 0 0 0;
T 0 20 2 0 2 (-3) 2 0 0 0 0 0 0 0 0 0;
T 0 20 2 (-2) 2 2 2 0 0 0 0 0 0 0 0 0;
T 0 (-20) 1 1 2 4 2 0 0 0 0 0 0 0 0 0;
T 0 (-20) 1 1 (-2) (-3) (-2) 0 0 0 0 0 0 0 0 0;
T 0 20 1 1 (-2) (-6) (-2) 0 0 0 0 0 0 0 0 0;
T (-20) 0 1 0 3 0 3 0 0 0 0 0 0 0 0 0;
T 20 0 1 0 1 1 1 0 0 1 0 0 0 0 0 0;
T 20 0 1 0 (-1) 1 (-1) 0 0 1 0 0 0 0 0 0;
T 0 20 1 0 (-1) 0 (-1) 0 (-3) 5 0 0 0 0 0 0;
T 20 0 1 0 (-1) (-2) (-1) 0 0 0 0 0 0 0 0 0;
T 0 20 1 0 (-2) (-2) (-2) 0 0 (-2) 0 3 0 0 0 0;
T 0 (-20) 1 (-1) 2 1 2 0 0 0 0 0 0 0 0 0;
T 0 20 1 (-1) (-2) 1 (-1) 0 0 0 0 0 0 0 0 0;
T 0 20 0 3 (-2) (-2) (-2) 0 0 0 0 0 0 0 0 0;
T 0 (-20) 0 0 4 2 2 0 0 0 0 0 0 0 0 0;
T 0 20 0 0 2 (-2) 1 0 0 1 0 (-1) 0 0 0 0;
T 0 20 0 0 2 (-2) 1 0 0 (-2) 0 0 0 0 0 0;
T 0 (-20) 0 0 2 (-2) 1 0 0 (-3) 0 3 0 0 0 0;
T 0 (-20) 0 0 2 (-2) 1 0 0 (-4) 4 0 0 0 0 0;
T 0 (-20) 0 0 2 (-2) 1 0 (-5) 5 0 0 0 0 0 0;
T 0 20 0 0 1 (-1) 1 0 1 (-3) 0 0 0 0 0 0;
T 0 (-20) 0 0 1 (-1) 1 0 0 1 (-4) 0 0 0 0 0;
T 20 0 0 0 1 (-1) 1 0 0 (-1) 0 1 (-3) 0 0 0;
T 20 0 0 0 1 (-1) 1 0 0 (-1) 0 0 0 (-1) 0 0;
T 0 (-20) 0 0 1 (-1) 1 0 0 (-4) 6 0 0 0 0 0;
T 20 0 0 0 1 (-1) 1 0 (-5) 6 0 0 0 0 0 0;
T 0 20 0 0 0 0 0 0 8 (-12) 0 0 0 0 0 (-2);
T 0 (-20) 0 0 0 0 0 0 7 (-10) 0 0 0 0 0 (-1);
T 20 0 0 0 0 0 0 0 7 (-11) 0 0 0 0 0 (-1);
T (-20) 0 0 0 0 0 0 0 6 (-4) 0 0 0 0 0 1;
T (-20) 0 0 0 0 0 0 0 6 (-6) 0 0 0 0 0 1;
T (-20) 0 0 0 0 0 0 0 5 (-5) 0 0 0 0 0 1;
T 0 (-20) 0 0 0 0 0 0 5 (-6) 0 0 0 0 0 (-1);
T (-20) 0 0 0 0 0 0 0 4 (-2) 0 0 0 0 0 0;
T 0 (-20) 0 0 0 0 0 0 4 (-5) 0 0 0 0 0 (-1);
T 20 0 0 0 0 0 0 0 4 (-5) 0 0 0 0 0 (-2);
T 0 (-20) 0 0 0 0 0 0 3 (-4) 0 0 0 0 0 1;
T 20 0 0 0 0 0 0 0 3 (-4) 0 0 0 0 0 (-2);
T (-20) 0 0 0 0 0 0 0 3 (-8) 0 0 0 0 0 (-2);
T 0 20 0 0 0 0 0 0 2 (-5) 0 0 0 0 0 (-1);
T 0 20 0 0 0 0 0 0 1 (-2) 0 0 0 0 0 (-1);
T 0 20 0 0 0 0 0 0 1 (-4) 0 0 0 0 0 (-1);
T 0 (-20) 0 0 0 0 0 0 0 9 (-17) 0 0 0 0 (-2);
T (-20) 0 0 0 0 0 0 0 0 7 (-7) 0 0 0 0 2;
T (-20) 0 0 0 0 0 0 0 0 7 (-8) 0 0 0 0 2;
T (-20) 0 0 0 0 0 0 0 0 7 (-9) 0 0 0 0 2;
T (-20) 0 0 0 0 0 0 0 0 5 (-6) 0 0 0 0 2;
T 20 0 0 0 0 0 0 0 0 5 (-10) 0 0 0 0 (-2);
T 0 20 0 0 0 0 0 0 0 4 0 (-4) 0 0 0 2;
T 0 (-20) 0 0 0 0 0 0 0 4 (-6) 0 0 0 0 (-2);
T 0 (-20) 0 0 0 0 0 0 0 4 (-7) 0 0 0 0 (-1);
T 0 (-20) 0 0 0 0 0 0 0 4 (-8) 3 0 0 0 1;
T 0 20 0 0 0 0 0 0 0 4 (-8) 3 0 0 0 (-1);
T 20 0 0 0 0 0 0 0 0 4 (-8) 1 5 0 0 2;
T 20 0 0 0 0 0 0 0 0 3 0 0 0 0 0 2;
T 0 20 0 0 0 0 0 0 0 3 (-8) 3 0 0 0 (-2);
T 20 0 0 0 0 0 0 0 0 2 0 0 (-2) 0 0 1;
T 0 (-20) 0 0 0 0 0 0 0 2 0 (-5) 0 0 0 (-2);
T 0 (-20) 0 0 0 0 0 0 0 2 (-4) 0 0 0 0 1;
T 20 0 0 0 0 0 0 0 0 2 (-7) 0 0 0 0 (-2);
T 20 0 0 0 0 0 0 0 0 1 0 1 0 0 0 1;
T 0 20 0 0 0 0 0 0 0 1 0 0 0 0 0 (-1);
T 20 0 0 0 0 0 0 0 0 1 0 (-1) 0 0 0 (-1);
T 20 0 0 0 0 0 0 0 0 1 0 (-2) 5 0 0 2;
T 0 20 0 0 0 0 0 0 0 1 0 (-2) 0 0 0 (-2);
T 0 (-20) 0 0 0 0 0 0 0 1 0 (-5) 0 0 0 (-2);
T 10 (-10) 0 0 0 0 0 0 0 2 1 0 0 0 0 2;
T 0 (-20) 1 0 4 0 1 0 0 0 0 0 0 0 0 0;
T 0 20 4 0 (-2) 0 (-1) 0 0 0 0 0 0 0 0 0;
T 0 (-20) 0 1 0 4 1 0 0 0 0 0 0 0 0 0;
T 0 20 2 0 0 4 1 0 0 0 0 0 0 0 0 0;
T 0 20 0 0 0 0 1 0 0 7 (-13) 0 0 0 0 0;
T 0 (-20) 2 1 0 2 1 0 0 0 0 0 0 0 0 0;
T 0 20 1 (-1) 0 4 1 0 0 0 0 0 0 0 0 0;
T 20 0 0 0 2 (-2) 1 0 (-8) 11 0 0 0 0 0 0;
T 0 20 1 0 2 (-6) 1 0 0 0 0 0 0 0 0 0;
T 0 20 0 0 2 (-2) 2 0 0 (-2) 0 2 0 0 0 0;
T 0 (-20) 1 2 2 0 1 0 0 0 0 0 0 0 0 0;
T 0 20 3 0 (-2) (-6) (-1) 0 0 0 0 0 0 0 0 0;
T 0 20 2 0 0 (-6) (-1) 0 0 0 0 0 0 0 0 0;
T 0 20 1 (-1) 2 4 1 0 0 0 0 0 0 0 0 0;
T 0 (-20) 2 1 2 2 1 0 0 0 0 0 0 0 0 0;
T (-20) 0 0 0 1 1 2 0 0 1 0 0 0 0 0 0;
T 0 20 2 (-1) (-2) (-2) (-1) 0 0 0 0 0 0 0 0 0;
T 0 (-20) 0 1 (-2) 4 (-1) 0 0 0 0 0 0 0 0 0;
T 0 20 2 0 2 4 1 0 0 0 0 0 0 0 0 0;
T 0 (-20) 1 (-1) (-2) (-4) (-1) 0 0 0 0 0 0 0 0 0;
T 0 (-20) 1 0 (-4) (-2) (-1) 0 0 0 0 0 0 0 0 0;
T 0 20 1 (-2) 2 2 1 0 0 0 0 0 0 0 0 0;
T 0 20 1 0 (-2) (-6) (-1) 0 0 0 0 0 0 0 0 0;
T 0 (-20) 3 1 2 (-2) 1 0 0 0 0 0 0 0 0 0;
T 0 (-20) 2 (-2) 0 (-2) (-2) 0 0 0 0 0 0 0 0 0;
T 0 20 2 (-1) 0 2 1 0 0 0 0 0 0 0 0 0;
T 0 20 3 0 0 0 2 0 0 0 0 0 0 0 0 0;
T 0 (-20) 1 (-1) 2 (-3) 1 0 0 0 0 0 0 0 0 0;
T 0 20 0 0 1 (-1) 2 0 (-5) 7 0 0 0 0 0 0;
T 0 (-20) 2 1 0 (-2) (-2) 0 0 0 0 0 0 0 0 0;
T (-20) 0 0 0 1 (-1) 2 0 0 (-1) 0 (-1) 0 0 0 0;
T 0 (-20) 2 1 (-2) 0 0 0 0 0 0 0 0 0 0 0;
T 0 20 1 0 (-2) 0 2 0 0 0 0 0 0 0 0 0;
T 0 (-20) 1 (-1) 0 0 (-2) 0 0 0 0 0 0 0 0 0;
T 0 (-20) 0 2 0 0 2 0 0 0 0 0 0 0 0 0;
T (-20) 0 0 0 0 0 1 0 3 (-4) 0 0 0 0 0 0;
T 0 (-20) 0 0 0 0 1 0 0 2 (-2) 0 0 0 0 0;
T 0 20 0 0 0 0 1 0 0 2 0 (-2) 0 0 0 0;
T 0 (-20) 0 1 2 (-4) 2 0 0 0 0 0 0 0 0 0;
T 0 20 0 0 1 (-1) 2 0 (-8) 12 0 0 0 0 0 0;
T 0 20 1 1 (-2) 2 (-2) 0 0 0 0 0 0 0 0 0;
T 0 (-19) 0 1 2 (-2) 0 0 0 0 0 0 0 0 0 0;
T 0 17 0 1 (-2) 2 (-3) 0 0 0 0 0 0 0 0 0;
T 0 11 1 0 (-2) 0 (-3) 0 0 0 0 0 0 0 0 0;
T 0 (-10) 1 1 (-2) (-2) 0 0 0 0 0 0 0 0 0 0;
T 10 0 0 0 0 0 1 0 0 (-1) 0 2 0 0 0 0;
T 0 (-10) 0 1 (-2) (-2) 0 0 0 0 0 0 0 0 0 0;
T 0 10 1 0 0 0 (-1) 0 (-10) 3 0 0 0 0 0 0;
T 0 (-10) 1 0 0 0 1 0 (-10) 3 0 0 0 0 0 0;
T 0 (-10) 1 0 (-2) (-4) 0 0 0 0 0 0 0 0 0 0;
T 0 (-10) 2 (-1) 0 2 0 0 0 0 0 0 0 0 0 0;
T 0 (-10) 0 2 0 0 (-2) 0 0 0 0 0 0 0 0 0;
T 0 (-10) 1 0 0 (-6) 0 0 0 0 0 0 0 0 0 0;
T 0 10 0 1 4 (-4) 2 0 0 0 0 0 0 0 0 0;
T 0 (-10) 2 0 0 (-6) 0 0 0 0 0 0 0 0 0 0;
T (-10) 0 0 0 0 0 2 0 0 0 0 1 0 0 0 0;
T 0 (-10) 3 0 0 (-4) 0 0 0 0 0 0 0 0 0 0;
T 0 (-10) 2 (-1) (-2) 0 1 0 0 0 0 0 0 0 0 0;
T 0 10 2 2 0 (-2) (-1) 0 0 0 0 0 0 0 0 0;
T 0 (-10) 0 0 0 3 2 0 0 0 0 0 0 0 0 0;
T 0 (-10) 3 (-1) 0 0 0 0 0 0 0 0 0 0 0 0;
T 10 0 0 0 2 0 2 0 2 (-3) 0 0 0 0 0 0;
T 10 0 0 0 2 0 2 0 (-2) 3 0 0 0 0 0 0;
T 0 10 0 0 2 0 2 0 2 (-2) 0 0 0 0 0 0;
T 0 (-10) 0 0 2 0 2 0 (-2) 2 0 0 0 0 0 0;
T 0 (-10) 2 (-1) (-2) 0 0 0 0 0 0 0 0 0 0 0;
T 0 10 2 0 (-2) (-2) (-2) 0 0 (-2) 0 2 0 0 0 0;
T 0 10 1 2 2 (-4) 1 0 0 0 0 0 0 0 0 0].

(** tables52ab.py:2585-2861 *)
Definition yj1 : list row := [
T 15304179 85332 0 0 0 0 1 0 0 0 0 0 0 0 0 0;
T 1171449 (-29091) 0 0 2 (-2) 2 0 0 0 0 0 0 0 0 0;
T 202468 (-5126) 0 0 2 0 2 0 0 0 0 0 0 0 0 0;
T (-183732) 4800 0 0 0 0 2 0 0 0 0 0 0 0 0 0;
T (-131221) (-2893) 0 1 0 0 0 0 0 0 0 0 0 0 0 0;
T (-63254) 78 1 0 0 0 0 0 0 0 0 0 0 0 0 0;
T 45968 (-6730) 0 1 2 (-2) 2 0 0 0 0 0 0 0 0 0;
T 34450 141 0 0 2 0 1 0 0 0 0 0 0 0 0 0;
T 26814 (-706) 1 0 2 0 2 0 0 0 0 0 0 0 0 0;
T 19206 2983 0 1 (-2) 2 (-2) 0 0 0 0 0 0 0 0 0;
T 13964 15 1 0 0 (-2) 0 0 0 0 0 0 0 0 0 0;
T (-11394) (-104) 0 0 2 (-2) 1 0 0 0 0 0 0 0 0 0;
T 10981 320 1 0 (-2) 0 (-2) 0 0 0 0 0 0 0 0 0;
T (-5637) 13 0 0 0 2 0 0 0 0 0 0 0 0 0 0;
T (-5617) (-1) 1 0 0 0 1 0 0 0 0 0 0 0 0 0;
T (-5305) (-124) 1 0 (-2) (-2) (-2) 0 0 0 0 0 0 0 0 0;
T (-5160) 16 1 0 0 0 (-1) 0 0 0 0 0 0 0 0 0;
T 4591 (-12) 1 0 2 0 1 0 0 0 0 0 0 0 0 0;
T (-4245) 2 2 0 0 (-2) 0 0 0 0 0 0 0 0 0 0;
T 4082 (-102) 2 0 (-2) 0 (-1) 0 0 0 0 0 0 0 0 0;
T 3430 (-125) 0 0 2 2 2 0 0 0 0 0 0 0 0 0;
T 2889 0 0 2 (-2) 2 (-2) 0 0 0 0 0 0 0 0 0;
T 2761 (-122) 2 0 2 0 2 0 0 0 0 0 0 0 0 0;
T (-2543) 100 1 0 2 (-2) 2 0 0 0 0 0 0 0 0 0;
T (-2601) 7 2 0 0 0 0 0 0 0 0 0 0 0 0 0;
T (-2302) 6 0 0 2 0 0 0 0 0 0 0 0 0 0 0;
T 1937 (-1) 0 0 2 (-2) 0 0 0 0 0 0 0 0 0 0;
T 1405 (-419) 0 2 2 (-2) 2 0 0 0 0 0 0 0 0 0;
T 1818 (-1) 1 0 (-2) 0 (-1) 0 0 0 0 0 0 0 0 0;
T (-1486) (-9) 0 2 0 0 0 0 0 0 0 0 0 0 0 0;
T 1349 (-1) 1 0 0 (-2) (-1) 0 0 0 0 0 0 0 0 0;
T 1244 (-27) 0 1 0 0 1 0 0 0 0 0 0 0 0 0;
T 1146 3 1 0 0 (-2) 1 0 0 0 0 0 0 0 0 0;
T (-1133) (-6) 0 1 0 0 (-1) 0 0 0 0 0 0 0 0 0;
T (-981) 1 2 0 (-2) 0 0 0 0 0 0 0 0 0 0 0;
T (-908) (-2) 1 0 (-2) (-2) (-1) 0 0 0 0 0 0 0 0 0;
T 274 (-456) 0 0 1 (-1) 1 0 0 (-1) 0 (-2) 5 0 0 0;
T 684 (-4) 1 0 2 2 2 0 0 0 0 0 0 0 0 0;
T (-673) 1 0 1 2 0 2 0 0 0 0 0 0 0 0 0;
T 654 1 1 1 0 (-2) 0 0 0 0 0 0 0 0 0 0;
T (-635) (-1) 0 1 (-2) 0 (-2) 0 0 0 0 0 0 0 0 0;
T 590 (-2) 0 0 2 2 1 0 0 0 0 0 0 0 0 0;
T (-585) 2 1 0 0 2 0 0 0 0 0 0 0 0 0 0;
T (-573) 1 2 0 2 (-2) 2 0 0 0 0 0 0 0 0 0;
T 560 0 0 0 0 2 1 0 0 0 0 0 0 0 0 0;
T (-516) 0 1 0 2 (-2) 1 0 0 0 0 0 0 0 0 0;
T (-514) 1 2 0 0 (-2) (-1) 0 0 0 0 0 0 0 0 0;
T 476 (-2) 2 0 2 0 1 0 0 0 0 0 0 0 0 0;
T (-440) 2 0 0 0 2 (-1) 0 0 0 0 0 0 0 0 0;
T (-422) 0 0 1 (-2) 2 (-1) 0 0 0 0 0 0 0 0 0;
T (-420) 1 1 (-1) 0 0 0 0 0 0 0 0 0 0 0 0;
T 358 31 1 0 0 (-1) 0 0 0 0 0 0 0 0 0 0;
T 387 1 0 1 0 (-2) 0 0 0 0 0 0 0 0 0 0;
T 376 0 0 0 0 1 0 0 0 0 0 0 0 0 0 0;
T (-362) 0 2 0 0 (-2) 1 0 0 0 0 0 0 0 0 0;
T (-361) 0 1 0 (-2) 0 0 0 0 0 0 0 0 0 0 0;
T (-128) (-214) 0 0 0 0 0 0 0 0 0 2 (-5) 0 0 (-1);
T (-318) 0 0 1 2 (-2) 1 0 0 0 0 0 0 0 0 0;
T 301 0 1 1 0 0 0 0 0 0 0 0 0 0 0 0;
T (-297) 1 1 0 2 0 0 0 0 0 0 0 0 0 0 0;
T 291 0 1 (-1) 0 (-1) 0 0 0 0 0 0 0 0 0 0;
T (-273) 0 2 0 (-2) 0 (-2) 0 0 0 0 0 0 0 0 0;
T 258 (-1) 3 0 2 0 2 0 0 0 0 0 0 0 0 0;
T 256 (-1) 1 (-1) 2 0 2 0 0 0 0 0 0 0 0 0;
T (-251) (-1) 1 1 (-2) (-2) (-2) 0 0 0 0 0 0 0 0 0;
T (-235) (-1) 0 1 (-2) (-2) (-2) 0 0 0 0 0 0 0 0 0;
T (-221) 1 1 1 2 0 2 0 0 0 0 0 0 0 0 0;
T (-204) 1 2 0 0 0 (-1) 0 0 0 0 0 0 0 0 0;
T (-194) 0 2 0 0 0 1 0 0 0 0 0 0 0 0 0;
T 41 (-143) 0 0 0 0 0 0 0 4 (-8) 3 0 0 0 0;
T (-184) 0 0 0 0 0 0 0 3 (-5) 0 0 0 0 0 (-2);
T (-177) 1 1 0 (-2) 2 (-1) 0 0 0 0 0 0 0 0 0;
T 0 177 0 1 (-1) 1 (-1) 0 0 0 0 0 0 0 0 0;
T 176 0 1 0 0 0 2 0 0 0 0 0 0 0 0 0;
T (-107) (-53) 0 0 1 (-1) 1 0 (-8) 12 0 0 0 0 0 0;
T (-148) 0 0 0 2 1 2 0 0 0 0 0 0 0 0 0;
T (-140) 1 3 0 0 0 0 0 0 0 0 0 0 0 0 0;
T (-135) (-1) 1 0 (-2) (-4) (-2) 0 0 0 0 0 0 0 0 0;
T (-132) 0 0 0 0 0 0 0 1 (-1) 0 0 0 0 0 0;
T (-128) 0 0 0 0 0 0 0 0 8 (-16) 4 5 0 0 0;
T 124 0 1 0 0 0 (-2) 0 0 0 0 0 0 0 0 0;
T 123 0 2 0 (-2) (-2) (-2) 0 0 0 0 0 0 0 0 0;
T 119 0 1 0 0 (-4) 0 0 0 0 0 0 0 0 0 0;
T 118 (-1) 1 0 2 2 1 0 0 0 0 0 0 0 0 0;
T 117 0 1 (-1) 0 (-1) (-1) 0 0 0 0 0 0 0 0 0;
T (-115) 0 1 1 2 (-2) 2 0 0 0 0 0 0 0 0 0;
T 114 0 2 0 0 (-4) 0 0 0 0 0 0 0 0 0 0;
T (-114) 0 0 2 (-2) 2 (-1) 0 0 0 0 0 0 0 0 0;
T 109 3 0 0 0 0 0 0 0 1 0 (-1) 0 0 0 0;
T (-108) 0 2 0 (-2) (-4) (-2) 0 0 0 0 0 0 0 0 0;
T 104 0 0 0 0 0 0 0 0 0 0 2 0 0 0 2;
T 102 0 1 0 (-4) 0 (-2) 0 0 0 0 0 0 0 0 0;
T 98 (-1) 2 0 2 2 2 0 0 0 0 0 0 0 0 0;
T 91 2 1 0 0 (-1) (-1) 0 0 0 0 0 0 0 0 0;
T 0 93 1 0 (-1) 0 (-1) 0 0 0 0 0 0 0 0 0;
T (-91) 0 2 0 2 (-2) 1 0 0 0 0 0 0 0 0 0;
T (-90) 0 2 1 0 (-2) 0 0 0 0 0 0 0 0 0 0;
T 86 0 1 0 0 2 1 0 0 0 0 0 0 0 0 0;
T (-84) 0 1 (-1) 0 (-2) 0 0 0 0 0 0 0 0 0 0;
T (-83) 0 3 0 2 (-2) 2 0 0 0 0 0 0 0 0 0;
T (-82) 0 0 0 4 (-2) 2 0 0 0 0 0 0 0 0 0;
T 41 39 0 0 0 0 1 0 0 (-1) 2 0 0 0 0 0;
T 40 (-38) 0 0 0 0 0 0 0 1 (-2) 0 0 0 0 0;
T 78 0 0 1 (-2) 2 0 0 0 0 0 0 0 0 0 0;
T 74 0 0 0 2 (-2) (-1) 0 0 0 0 0 0 0 0 0;
T (-73) 0 0 1 2 0 1 0 0 0 0 0 0 0 0 0;
T 68 0 1 0 2 (-2) 0 0 0 0 0 0 0 0 0 0;
T 66 0 1 1 0 (-2) (-1) 0 0 0 0 0 0 0 0 0;
T (-64) 0 2 0 (-2) 0 1 0 0 0 0 0 0 0 0 0;
T (-63) 0 0 1 0 0 2 0 0 0 0 0 0 0 0 0;
T 63 0 0 0 2 (-1) 2 0 0 0 0 0 0 0 0 0;
T 62 0 0 0 2 4 2 0 0 0 0 0 0 0 0 0;
T 60 0 0 1 0 2 0 0 0 0 0 0 0 0 0 0;
T (-59) 0 0 0 2 0 (-1) 0 0 0 0 0 0 0 0 0;
T (-59) 0 0 1 (-2) 0 (-1) 0 0 0 0 0 0 0 0 0;
T 59 0 0 1 2 (-2) 0 0 0 0 0 0 0 0 0 0;
T 57 0 1 0 (-2) (-2) 0 0 0 0 0 0 0 0 0 0;
T 38 (-19) 0 0 0 0 0 0 8 (-13) 0 0 0 0 0 (-1);
T (-1) (-55) 0 0 0 0 0 0 2 (-3) 0 0 0 0 0 0;
T 44 (-11) 0 0 0 0 0 0 0 0 0 2 (-5) 0 0 0;
T 53 0 0 0 0 0 0 0 2 (-2) 0 0 0 0 0 0;
T (-53) 0 1 (-1) 0 (-1) (-2) 0 0 0 0 0 0 0 0 0;
T 52 0 1 (-1) 2 2 2 0 0 0 0 0 0 0 0 0;
T (-52) 0 2 0 0 2 0 0 0 0 0 0 0 0 0 0;
T 53 0 0 1 0 0 (-2) 0 0 0 0 0 0 0 0 0;
T 52 0 1 1 0 (-2) 1 0 0 0 0 0 0 0 0 0;
T 51 0 1 0 (-2) 2 0 0 0 0 0 0 0 0 0 0;
T 51 0 1 (-1) (-2) (-2) (-2) 0 0 0 0 0 0 0 0 0;
T (-21) (-30) 0 0 0 0 0 0 8 (-13) 0 0 0 0 0 0;
T (-50) 0 0 1 0 1 0 0 0 0 0 0 0 0 0 0;
T (-11) 37 0 0 0 0 0 0 0 2 (-8) 3 0 0 0 (-2);
T (-11) 37 0 0 0 0 0 0 0 6 (-8) 3 0 0 0 2;
T (-48) 0 0 1 2 2 2 0 0 0 0 0 0 0 0 0;
T (-46) (-1) 0 0 0 0 0 0 0 3 0 (-1) 0 0 0 2;
T (-47) 0 1 (-1) 0 0 1 0 0 0 0 0 0 0 0 0;
T (-3) 43 0 0 1 (-1) 1 0 0 (-1) 0 2 (-5) 0 0 0;
T 45 0 3 0 2 0 1 0 0 0 0 0 0 0 0 0;
T (-44) 0 0 0 0 4 0 0 0 0 0 0 0 0 0 0;
T (-44) 0 1 0 0 2 (-1) 0 0 0 0 0 0 0 0 0;
T (-44) 0 1 (-1) 0 2 0 0 0 0 0 0 0 0 0 0;
T 43 0 2 (-1) 2 0 2 0 0 0 0 0 0 0 0 0;
T 44 0 0 0 0 0 0 0 4 (-6) 0 0 0 0 0 (-2);
T 42 0 0 0 0 2 2 0 0 0 0 0 0 0 0 0;
T (-42) 0 1 1 (-2) (-2) (-1) 0 0 0 0 0 0 0 0 0;
T 41 0 1 (-1) (-2) 0 (-2) 0 0 0 0 0 0 0 0 0;
T (-41) 0 0 0 0 0 0 0 2 (-4) 0 0 0 0 0 (-2);
T 2 39 0 0 2 (-2) 1 0 (-5) 6 0 0 0 0 0 0;
T 40 0 1 0 2 (-4) 1 0 0 0 0 0 0 0 0 0;
T (-40) 0 0 1 (-2) (-2) (-1) 0 0 0 0 0 0 0 0 0;
T (-39) 0 2 0 0 (-2) 0 0 0 (-2) 0 2 0 0 0 0;
T 39 0 0 3 2 (-2) 2 0 0 0 0 0 0 0 0 0;
T 15 (-24) 0 0 0 0 0 0 0 1 0 (-2) 0 0 0 0;
T (-37) (-1) 0 0 0 0 0 0 0 2 0 (-2) 0 0 0 0;
T 37 0 1 (-1) 2 0 1 0 0 0 0 0 0 0 0 0;
T (-37) 0 0 0 2 2 0 0 0 0 0 0 0 0 0 0;
T (-37) 0 2 1 2 0 2 0 0 0 0 0 0 0 0 0;
T (-31) 6 2 0 0 (-2) 0 0 0 (-2) 0 3 0 0 0 0;
T (-35) 0 1 0 0 (-2) (-2) 0 0 0 0 0 0 0 0 0;
T 35 0 0 0 0 1 1 0 0 0 0 0 0 0 0 0;
T (-7) (-27) 0 0 0 0 1 0 0 (-4) 8 (-3) 0 0 0 0;
T (-33) 1 0 0 0 0 0 0 2 0 0 0 0 0 0 2;
T (-33) 0 2 (-1) 0 0 0 0 0 0 0 0 0 0 0 0;
T 7 (-26) 0 0 0 0 1 0 0 4 (-8) 3 0 0 0 0;
T 33 0 0 0 0 0 0 0 0 2 (-2) 0 0 0 0 0;
T 0 (-32) 1 0 (-1) 0 (-2) 0 0 0 0 0 0 0 0 0;
T 32 0 1 1 0 0 1 0 0 0 0 0 0 0 0 0;
T (-32) 0 1 1 2 0 1 0 0 0 0 0 0 0 0 0;
T 32 0 1 0 (-2) 2 (-2) 0 0 0 0 0 0 0 0 0;
T (-24) (-7) 0 0 1 (-1) 1 0 0 0 (-2) 0 0 0 0 0;
T 24 7 0 0 1 (-1) 0 0 0 0 (-2) 0 0 0 0 0;
T 30 0 0 0 0 0 0 0 1 1 0 0 0 0 0 2;
T 8 (-22) 0 0 0 0 0 0 0 0 0 1 0 0 0 0;
T (-30) 0 1 0 2 1 2 0 0 0 0 0 0 0 0 0;
T (-30) 0 2 0 2 0 0 0 0 0 0 0 0 0 0 0;
T 30 0 0 1 0 (-2) 1 0 0 0 0 0 0 0 0 0;
T 30 0 1 0 2 (-1) 2 0 0 0 0 0 0 0 0 0;
T 0 (-29) 0 0 0 0 0 0 3 (-4) 0 0 0 0 0 0;
T 0 (-29) 1 0 (-1) 0 0 0 0 0 0 0 0 0 0 0;
T 20 (-9) 1 0 0 0 0 0 (-18) 16 0 0 0 0 0 0;
T 29 0 1 0 0 1 0 0 0 0 0 0 0 0 0 0;
T (-5) (-24) 0 0 0 0 0 0 0 0 0 2 0 0 0 1;
T 29 0 0 0 0 1 (-1) 0 0 0 0 0 0 0 0 0;
T (-27) 0 1 0 0 (-2) 2 0 0 0 0 0 0 0 0 0;
T (-19) (-8) 1 0 0 0 0 0 (-10) 3 0 0 0 0 0 0;
T (-27) 0 1 (-1) 0 0 (-1) 0 0 0 0 0 0 0 0 0;
T 25 0 2 1 0 0 0 0 0 0 0 0 0 0 0 0;
T 25 0 2 0 0 (-2) (-1) 0 0 (-2) 0 2 0 0 0 0;
T (-25) 0 0 0 2 1 1 0 0 0 0 0 0 0 0 0;
T 25 0 1 2 0 (-2) 0 0 0 0 0 0 0 0 0 0;
T (-25) 0 0 3 0 0 0 0 0 0 0 0 0 0 0 0;
T (-1) 23 0 0 0 0 0 0 5 (-8) 0 0 0 0 0 (-2);
T (-23) 0 1 0 (-2) (-4) (-1) 0 0 0 0 0 0 0 0 0;
T 23 0 0 0 0 0 0 0 0 1 0 1 0 0 0 2;
T 23 0 4 0 2 0 2 0 0 0 0 0 0 0 0 0;
T (-15) (-7) 0 0 1 (-1) 1 0 0 (-1) 0 0 (-1) 0 0 0;
T (-23) 0 1 0 (-2) 0 1 0 0 0 0 0 0 0 0 0;
T (-22) 0 2 1 2 (-2) 2 0 0 0 0 0 0 0 0 0;
T 22 0 0 1 2 1 2 0 0 0 0 0 0 0 0 0;
T (-22) 0 1 1 2 (-2) 1 0 0 0 0 0 0 0 0 0;
T (-22) 0 1 0 4 (-2) 2 0 0 0 0 0 0 0 0 0;
T 4 (-17) 0 0 1 (-1) 1 0 0 (-1) 0 (-1) 0 0 0 0;
T (-1) (-21) 0 0 2 (-2) 0 0 (-5) 6 0 0 0 0 0 0;
T 8 (-14) 0 0 0 0 0 0 0 2 (-4) 0 0 0 0 0;
T (-1) 19 0 0 0 0 0 0 0 0 0 2 (-5) 0 0 1;
T 21 0 2 0 (-2) (-2) (-1) 0 0 0 0 0 0 0 0 0;
T (-20) 0 1 0 (-2) 1 (-1) 0 0 0 0 0 0 0 0 0;
T (-20) 0 2 (-2) 0 (-2) 0 0 0 0 0 0 0 0 0 0;
T (-4) (-16) 0 0 0 0 0 0 8 (-13) 0 0 0 0 0 (-2);
T 19 0 0 2 0 (-2) 0 0 0 0 0 0 0 0 0 0;
T 19 0 1 1 0 0 (-1) 0 0 0 0 0 0 0 0 0;
T (-19) 0 2 0 (-2) (-4) (-1) 0 0 0 0 0 0 0 0 0;
T 18 0 0 0 0 0 0 0 5 (-7) 0 0 0 0 0 (-2);
T (-18) 0 0 1 0 2 1 0 0 0 0 0 0 0 0 0;
T 18 0 1 0 (-4) 0 (-1) 0 0 0 0 0 0 0 0 0;
T 17 0 2 0 2 2 1 0 0 0 0 0 0 0 0 0;
T (-12) 6 1 0 2 0 2 0 0 1 0 0 0 0 0 0;
T 13 (-4) 0 0 0 0 0 0 3 (-5) 0 0 0 0 0 0;
T (-11) 6 1 0 (-2) 0 (-2) 0 0 4 (-8) 3 0 0 0 0;
T 17 0 0 0 2 (-3) 2 0 0 0 0 0 0 0 0 0;
T (-17) 0 0 0 4 0 2 0 0 0 0 0 0 0 0 0;
T 16 0 0 0 0 0 0 0 0 4 0 (-2) 0 0 0 2;
T (-17) 0 1 0 0 (-4) (-1) 0 0 0 0 0 0 0 0 0;
T (-14) 2 1 0 0 (-1) 1 0 0 0 0 0 0 0 0 0;
T 14 3 0 0 0 0 0 0 0 2 0 (-1) 0 0 0 2;
T 0 15 0 0 0 0 0 0 2 (-1) 0 0 0 0 0 2;
T (-15) 0 1 1 (-2) (-4) (-2) 0 0 0 0 0 0 0 0 0;
T (-14) 1 0 0 0 0 0 0 0 2 0 1 0 0 0 2;
T 16 0 2 0 0 (-2) (-2) 0 0 0 0 0 0 0 0 0;
T (-6) 10 0 0 0 0 0 0 8 (-11) 0 0 0 0 0 (-2);
T 5 10 0 0 0 0 0 0 0 8 (-16) 4 5 0 0 (-2);
T 2 13 0 0 1 (-1) 1 0 0 (-1) 0 2 0 0 0 0;
T (-11) 4 0 0 0 0 0 0 0 8 (-16) 4 5 0 0 2;
T (-12) (-2) 0 0 1 (-1) 1 0 (-5) 7 0 0 0 0 0 0;
T (-5) (-10) 0 0 0 0 0 0 0 0 0 0 2 0 0 1;
T 14 0 1 0 2 4 2 0 0 0 0 0 0 0 0 0;
T (-9) 5 1 0 0 (-2) 0 0 19 (-21) 3 0 0 0 0 0;
T 0 14 0 0 1 0 1 0 0 0 0 0 0 0 0 0;
T 14 0 3 0 0 (-4) 0 0 0 0 0 0 0 0 0 0;
T (-14) 0 1 1 (-2) 0 (-2) 0 0 0 0 0 0 0 0 0;
T 4 10 0 0 1 (-1) 1 0 0 (-1) 0 0 2 0 0 0;
T (-6) 8 0 0 0 0 0 0 0 3 0 (-2) 0 0 0 2;
T 5 9 0 0 0 0 0 0 8 (-15) 0 0 0 0 0 (-2);
T (-14) 0 0 1 0 (-2) (-1) 0 0 0 0 0 0 0 0 0;
T 8 6 0 0 0 0 0 0 0 1 2 0 0 0 0 2;
T 14 0 0 0 0 4 1 0 0 0 0 0 0 0 0 0;
T 14 0 0 0 2 (-4) 1 0 0 0 0 0 0 0 0 0;
T 13 0 1 1 0 (-4) 0 0 0 0 0 0 0 0 0 0;
T (-7) 6 0 0 0 0 0 0 0 3 (-2) 0 0 0 0 2;
T 11 (-2) 0 0 0 0 0 0 0 0 0 3 0 0 0 2;
T (-13) 0 3 0 2 (-2) 1 0 0 0 0 0 0 0 0 0;
T (-13) 0 0 0 0 0 0 0 0 4 (-2) 0 0 0 0 2;
T (-13) 0 1 1 2 2 2 0 0 0 0 0 0 0 0 0;
T (-13) 0 0 0 4 (-2) 1 0 0 0 0 0 0 0 0 0;
T (-12) 0 2 0 0 (-2) 0 0 (-3) 3 0 0 0 0 0 0;
T 12 0 3 0 2 2 2 0 0 0 0 0 0 0 0 0;
T 12 0 0 0 0 0 0 0 0 0 0 0 2 0 0 2;
T (-12) 0 2 1 0 (-2) (-1) 0 0 0 0 0 0 0 0 0;
T (-2) (-9) 0 0 0 0 0 0 4 (-6) 0 0 0 0 0 (-1);
T 2 (-9) 0 0 0 0 0 0 1 (-1) 0 0 0 0 0 (-1);
T 0 (-12) 1 0 0 (-1) 0 0 (-3) 4 0 0 0 0 0 0;
T (-11) 0 0 2 (-2) (-2) (-2) 0 0 0 0 0 0 0 0 0;
T 11 0 2 0 0 (-4) (-1) 0 0 0 0 0 0 0 0 0;
T 7 (-4) 0 0 0 0 0 0 0 3 (-4) 0 0 0 0 0;
T 11 0 0 0 2 4 1 0 0 0 0 0 0 0 0 0;
T 11 0 0 0 0 2 (-2) 0 0 0 0 0 0 0 0 0;
T (-11) 0 3 0 0 0 (-1) 0 0 0 0 0 0 0 0 0;
T 10 0 0 0 0 0 0 0 0 1 0 (-3) 0 0 0 (-2);
T (-10) 0 0 0 2 (-2) 1 0 (-3) 3 0 0 0 0 0 0;
T 10 0 0 0 0 0 0 0 6 (-8) 0 0 0 0 0 (-2);
T 10 0 2 1 0 (-4) 0 0 0 0 0 0 0 0 0 0;
T 10 0 0 0 1 (-1) 1 0 0 3 (-8) 3 0 0 0 0;
T 0 10 0 0 0 0 0 0 3 (-2) 0 0 0 0 0 2;
T 0 10 0 0 0 0 0 0 2 (-5) 0 0 0 0 0 (-2);
T (-10) 0 4 0 2 (-2) 2 0 0 0 0 0 0 0 0 0;
T 10 0 2 0 0 2 1 0 0 0 0 0 0 0 0 0;
T (-10) 0 1 (-1) 0 (-2) (-1) 0 0 0 0 0 0 0 0 0;
T 10 0 0 0 0 0 0 0 1 (-3) 0 0 0 0 0 (-2)].

(** tables52ab.py:2864-2893 *)
Definition yj2 : list row := [
T 12056 (-230127) 0 0 0 0 1 0 0 0 0 0 0 0 0 0;
T (-103) (-14327) 0 0 2 (-2) 2 0 0 0 0 0 0 0 0 0;
T (-28) (-2446) 0 0 2 0 2 0 0 0 0 0 0 0 0 0;
T 24 2241 0 0 0 0 2 0 0 0 0 0 0 0 0 0;
T (-119) (-561) 0 1 2 (-2) 2 0 0 0 0 0 0 0 0 0;
T 357 (-183) 0 1 0 0 0 0 0 0 0 0 0 0 0 0;
T 24 (-502) 0 0 2 0 1 0 0 0 0 0 0 0 0 0;
T (-4) (-323) 1 0 2 0 2 0 0 0 0 0 0 0 0 0;
T (-48) 240 0 1 (-2) 2 (-2) 0 0 0 0 0 0 0 0 0;
T (-10) 173 0 0 2 (-2) 1 0 0 0 0 0 0 0 0 0;
T (-2) 133 1 0 (-2) 0 (-2) 0 0 0 0 0 0 0 0 0;
T (-4) 83 1 0 0 0 1 0 0 0 0 0 0 0 0 0;
T (-5) (-79) 1 0 0 0 (-1) 0 0 0 0 0 0 0 0 0;
T 3 (-66) 1 0 2 0 1 0 0 0 0 0 0 0 0 0;
T 0 (-64) 1 0 (-2) (-2) (-2) 0 0 0 0 0 0 0 0 0;
T 4 61 2 0 (-2) 0 (-1) 0 0 0 0 0 0 0 0 0;
T (-1) (-41) 0 0 2 2 2 0 0 0 0 0 0 0 0 0;
T (-1) 35 0 2 (-2) 2 (-2) 0 0 0 0 0 0 0 0 0;
T (-1) (-33) 2 0 2 0 2 0 0 0 0 0 0 0 0 0;
T 1 31 1 0 2 (-2) 2 0 0 0 0 0 0 0 0 0;
T 1 27 1 0 (-2) 0 (-1) 0 0 0 0 0 0 0 0 0;
T (-7) (-17) 0 2 2 (-2) 2 0 0 0 0 0 0 0 0 0;
T 7 17 1 0 0 0 0 0 0 0 0 0 0 0 0 0;
T 2 (-21) 0 1 0 0 1 0 0 0 0 0 0 0 0 0;
T 1 20 1 0 0 (-2) (-1) 0 0 0 0 0 0 0 0 0;
T 1 (-17) 1 0 0 (-2) 1 0 0 0 0 0 0 0 0 0;
T 1 (-16) 0 1 0 0 (-1) 0 0 0 0 0 0 0 0 0;
T 0 (-13) 1 0 (-2) (-2) (-1) 0 0 0 0 0 0 0 0 0;
T (-7) (-4) 0 0 1 (-1) 1 0 0 (-1) 0 (-2) 5 0 0 0;
T 2 8 0 1 2 0 2 0 0 0 0 0 0 0 0 0].

(** tables52ab.py:2896-2900 *)
Definition yj3 : list row := [
T (-1522) (-161) 0 0 0 0 1 0 0 0 0 0 0 0 0 0;
T (-116) (-1) 0 0 2 (-2) 2 0 0 0 0 0 0 0 0 0;
T (-20) 0 0 0 2 0 2 0 0 0 0 0 0 0 0 0;
T 18 0 0 0 0 0 2 0 0 0 0 0 0 0 0 0;
T 13 0 0 1 0 0 0 0 0 0 0 0 0 0 0 0].

(** tables52ab.py:2903-2903 *)
Definition yj4 : list row := [
T (-2) 11 0 0 0 0 1 0 0 0 0 0 0 0 0 0].
