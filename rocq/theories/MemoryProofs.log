Chars 98 - 129 [From~stdpp~Require~Import~list.] 0.544 secs (0.409u,0.127s)
Chars 130 - 175 [From~Coq~Require~Import~ZArith...] 0.332 secs (0.278u,0.047s)
Chars 176 - 236 [From~Flocq~Require~Import~Core...] 0.035 secs (0.03u,0.003s)
Chars 237 - 333 [From~Verif~Require~Import~F32~...] 0.143 secs (0.137u,0.003s)
Chars 334 - 359 [#[local]Open~Scope~R_scope.] 0. secs (0.u,0.s)
Chars 392 - 464 [Definition~performance~(x~:~R)...] 0.001 secs (0.001u,0.s)
Chars 465 - 519 [Definition~ease~(d~:~R)~:~R~:=...] 0. secs (0.u,0.s)
Chars 520 - 608 [Definition~growth_of~(p~e~g~m~...] 0. secs (0.u,0.s)
Chars 609 - 667 [Definition~limited~(x~:~R)~:~R...] 0. secs (0.u,0.s)
Chars 668 - 736 [Definition~grown~(s~gr~:~R)~:~...] 0. secs (0.u,0.s)
Chars 738 - 809 [Lemma~performance_mono~x~y~:~x...] 0. secs (0.u,0.s)
Chars 810 - 816 [Proof.] 0. secs (0.u,0.s)
Chars 817 - 826 [(intros~H).] 0. secs (0.u,0.s)
Chars 827 - 846 [(unfold~performance).] 0. secs (0.u,0.s)
Chars 847 - 860 [(apply~rnd_le).] 0. secs (0.u,0.s)
Chars 861 - 925 [(assert~(rnd~(rnd~(x~-~1)~/~4)...] 0.003 secs (0.003u,0.s)
Chars 926 - 939 [(apply~rnd_le).] 0. secs (0.u,0.s)
Chars 942 - 986 [(assert~(rnd~(x~-~1)~<=~rnd~(y...] 0.001 secs (0.001u,0.s)
Chars 987 - 1000 [(apply~rnd_le).] 0. secs (0.u,0.s)
Chars 1001 - 1005 [lra.] 0. secs (0.u,0.s)
Chars 1006 - 1010 [Qed.] 0.003 secs (0.003u,0.s)
Chars 1011 - 1075 [Lemma~rnd_Z~z~:~(Z.abs~z~<=~16...] 0. secs (0.u,0.s)
Chars 1076 - 1082 [Proof.] 0. secs (0.u,0.s)
Chars 1083 - 1092 [(intros~H).] 0. secs (0.u,0.s)
Chars 1093 - 1119 [by~apply~rnd_repr,~repr_Z.] 0. secs (0.u,0.s)
Chars 1120 - 1124 [Qed.] 0. secs (0.u,0.s)
Chars 1125 - 1149 [Lemma~rnd_0~:~rnd~0~=~0.] 0. secs (0.u,0.s)
Chars 1150 - 1156 [Proof.] 0. secs (0.u,0.s)
Chars 1157 - 1176 [by~apply~(rnd_Z~0).] 0.003 secs (0.003u,0.s)
Chars 1177 - 1181 [Qed.] 0. secs (0.u,0.s)
Chars 1182 - 1215 [Lemma~rnd_half~:~rnd~(/~2)~=~/~2.] 0. secs (0.u,0.s)
Chars 1216 - 1222 [Proof.] 0. secs (0.u,0.s)
Chars 1223 - 1249 [(apply~rnd_repr,~repr_half).] 0. secs (0.u,0.s)
Chars 1250 - 1254 [Qed.] 0. secs (0.u,0.s)
Chars 1255 - 1295 [Lemma~performance_3~:~performa...] 0. secs (0.u,0.s)
Chars 1296 - 1302 [Proof.] 0. secs (0.u,0.s)
Chars 1305 - 1324 [(unfold~performance).] 0. secs (0.u,0.s)
Chars 1325 - 1355 [replace~(3~-~1)~with~2~by~lra.] 0.001 secs (0.001u,0.s)
Chars 1356 - 1381 [(rewrite~(rnd_Z~2)~by~lia).] 0.002 secs (0.002u,0.s)
Chars 1382 - 1416 [replace~(2~/~4)~with~(/~2)~by~...] 0.001 secs (0.001u,0.s)
Chars 1419 - 1436 [(rewrite~rnd_half).] 0. secs (0.u,0.s)
Chars 1437 - 1471 [replace~(/~2~-~/~2)~with~0~by~...] 0.001 secs (0.001u,0.s)
Chars 1472 - 1484 [(apply~rnd_0).] 0. secs (0.u,0.s)
Chars 1485 - 1489 [Qed.] 0.003 secs (0.003u,0.s)
Chars 1490 - 1530 [Lemma~rnd_pos~r~:~0~<=~r~→~0~<...] 0. secs (0.u,0.s)
Chars 1531 - 1537 [Proof.] 0. secs (0.u,0.s)
Chars 1538 - 1547 [(intros~H).] 0. secs (0.u,0.s)
Chars 1548 - 1572 [(apply~rnd_ge;~[~rp~|~done~]).] 0.001 secs (0.001u,0.s)
Chars 1573 - 1577 [Qed.] 0.001 secs (0.001u,0.s)
Chars 1578 - 1618 [Lemma~rnd_neg~r~:~r~<=~0~→~rnd...] 0. secs (0.u,0.s)
Chars 1619 - 1625 [Proof.] 0. secs (0.u,0.s)
Chars 1626 - 1635 [(intros~H).] 0. secs (0.u,0.s)
Chars 1636 - 1665 [(apply~rnd_le_repr;~[~rp~|~don...] 0.001 secs (0.001u,0.s)
Chars 1666 - 1670 [Qed.] 0.001 secs (0.001u,0.s)
Chars 1672 - 1766 [Lemma~growth_pos~p~e~g~m~:~~~0...] 0. secs (0.u,0.s)
Chars 1767 - 1773 [Proof.] 0. secs (0.u,0.s)
Chars 1776 - 1783 [(intros).] 0. secs (0.u,0.s)
Chars 1784 - 1801 [(unfold~growth_of).] 0. secs (0.u,0.s)
Chars 1802 - 1839 [(apply~rnd_pos,~Rmult_le_pos;~...] 0. secs (0.u,0.s)
Chars 1840 - 1877 [(apply~rnd_pos,~Rmult_le_pos;~...] 0. secs (0.u,0.s)
Chars 1880 - 1917 [(apply~rnd_pos,~Rmult_le_pos;~...] 0. secs (0.u,0.s)
Chars 1918 - 1932 [(apply~rnd_pos).] 0. secs (0.u,0.s)
Chars 1933 - 1937 [lra.] 0.001 secs (0.001u,0.s)
Chars 1938 - 1942 [Qed.] 0.001 secs (0.001u,0.s)
Chars 1943 - 2037 [Lemma~growth_neg~p~e~g~m~:~~~p...] 0. secs (0.u,0.s)
Chars 2038 - 2044 [Proof.] 0. secs (0.u,0.s)
Chars 2047 - 2066 [(intros~Hp~He~Hg~Hm).] 0. secs (0.u,0.s)
Chars 2067 - 2084 [(unfold~growth_of).] 0. secs (0.u,0.s)
Chars 2085 - 2144 [(assert~(H1~:~rnd~(5~/~2~*~p)~...] 0.001 secs (0.001u,0.s)
Chars 2147 - 2216 [(assert~(H2~:~rnd~(rnd~(5~/~2~...] 0.003 secs (0.003u,0.s)
Chars 2219 - 2298 [(assert~(H3~:~rnd~(rnd~(rnd~(5...] 0.005 secs (0.005u,0.s)
Chars 2299 - 2313 [(apply~rnd_neg).] 0. secs (0.u,0.s)
Chars 2314 - 2318 [nra.] 0.006 secs (0.006u,0.s)
Chars 2319 - 2323 [Qed.] 0.004 secs (0.004u,0.s)
Chars 2324 - 2442 [Lemma~growth_mono_p~p~p'~e~g~m...] 0. secs (0.u,0.s)
Chars 2443 - 2449 [Proof.] 0. secs (0.u,0.s)
Chars 2452 - 2471 [(intros~Hp~He~Hg~Hm).] 0. secs (0.u,0.s)
Chars 2472 - 2489 [(unfold~growth_of).] 0. secs (0.u,0.s)
Chars 2490 - 2531 [(apply~rnd_le,~Rmult_le_compat...] 0. secs (0.u,0.s)
Chars 2532 - 2573 [(apply~rnd_le,~Rmult_le_compat...] 0. secs (0.u,0.s)
Chars 2576 - 2617 [(apply~rnd_le,~Rmult_le_compat...] 0. secs (0.u,0.s)
Chars 2618 - 2631 [(apply~rnd_le).] 0. secs (0.u,0.s)
Chars 2632 - 2636 [lra.] 0.001 secs (0.001u,0.s)
Chars 2637 - 2641 [Qed.] 0.002 secs (0.002u,0.s)
Chars 2642 - 2775 [Lemma~growth_mono_g~p~e~g~g'~m...] 0. secs (0.u,0.s)
Chars 2776 - 2782 [Proof.] 0. secs (0.u,0.s)
Chars 2785 - 2804 [(intros~Hp~He~Hg~Hm).] 0. secs (0.u,0.s)
Chars 2805 - 2822 [(unfold~growth_of).] 0. secs (0.u,0.s)
Chars 2823 - 2860 [(set~(a~:=~rnd~(rnd~(5~/~2~*~p...] 0.001 secs (0.001u,0.s)
Chars 2863 - 2946 [(assert~(Ha~:~0~<=~a)~by~~~(ap...] 0.001 secs (0.001u,0.s)
Chars 2949 - 2962 [(apply~rnd_le).] 0. secs (0.u,0.s)
Chars 2963 - 3031 [(apply~Rmult_le_compat;~[~appl...] 0.003 secs (0.003u,0.s)
Chars 3032 - 3045 [(apply~rnd_le).] 0. secs (0.u,0.s)
Chars 3046 - 3075 [(apply~Rmult_le_compat_l;~lra).] 0.001 secs (0.001u,0.s)
Chars 3076 - 3080 [Qed.] 0.003 secs (0.003u,0.s)
Chars 3081 - 3140 [Lemma~limited_mono~x~y~:~x~<=~...] 0. secs (0.u,0.s)
Chars 3141 - 3147 [Proof.] 0. secs (0.u,0.s)
Chars 3148 - 3157 [(intros~H).] 0. secs (0.u,0.s)
Chars 3158 - 3173 [(unfold~limited).] 0. secs (0.u,0.s)
Chars 3174 - 3218 [by~apply~Rle_min_compat_r,~Rle...] 0. secs (0.u,0.s)
Chars 3219 - 3223 [Qed.] 0. secs (0.u,0.s)
Chars 3224 - 3279 [Lemma~limited_id~x~:~/~2~<=~x~...] 0. secs (0.u,0.s)
Chars 3280 - 3286 [Proof.] 0. secs (0.u,0.s)
Chars 3287 - 3296 [(intros~H).] 0. secs (0.u,0.s)
Chars 3297 - 3312 [(unfold~limited).] 0. secs (0.u,0.s)
Chars 3313 - 3338 [(rewrite~Rmax_left~by~lra).] 0.001 secs (0.001u,0.s)
Chars 3339 - 3367 [by~rewrite~Rmin_left~by~lra.] 0.001 secs (0.001u,0.s)
Chars 3368 - 3372 [Qed.] 0.001 secs (0.001u,0.s)
Chars 3373 - 3443 [Lemma~grown_mono~s~a~b~:~0~<=~...] 0. secs (0.u,0.s)
Chars 3444 - 3450 [Proof.] 0. secs (0.u,0.s)
Chars 3451 - 3463 [(intros~Hs~H).] 0. secs (0.u,0.s)
Chars 3464 - 3477 [(unfold~grown).] 0. secs (0.u,0.s)
Chars 3478 - 3533 [(apply~limited_mono,~rnd_le,~R...] 0. secs (0.u,0.s)
Chars 3534 - 3547 [(apply~rnd_le).] 0. secs (0.u,0.s)
Chars 3548 - 3552 [lra.] 0.048 secs (0.048u,0.s)
Chars 3553 - 3557 [Qed.] 0.001 secs (0.001u,0.s)
Chars 3558 - 3624 [Lemma~grown_0~s~:~/~2~<=~val~s...] 0. secs (0.u,0.s)
Chars 3625 - 3631 [Proof.] 0. secs (0.u,0.s)
Chars 3634 - 3643 [(intros~H).] 0. secs (0.u,0.s)
Chars 3644 - 3657 [(unfold~grown).] 0. secs (0.u,0.s)
Chars 3658 - 3688 [replace~(1~+~0)~with~1~by~lra.] 0.002 secs (0.002u,0.s)
Chars 3689 - 3714 [(rewrite~(rnd_Z~1)~by~lia).] 0.002 secs (0.002u,0.s)
Chars 3715 - 3742 [(rewrite~Rmult_1_r,~rnd_val).] 0.001 secs (0.001u,0.s)
Chars 3743 - 3763 [by~apply~limited_id.] 0. secs (0.u,0.s)
Chars 3764 - 3768 [Qed.] 0.002 secs (0.002u,0.s)
Chars 3770 - 3785 [Section~memory.] 0. secs (0.u,0.s)
Chars 3788 - 3846 [Context~(powf~:~f32~→~f32~→~f3...] 0. secs (0.u,0.s)
Chars 3850 - 4277 [Lemma~apply_stability_val~ty~s...] 0.001 secs (0.001u,0.s)
Chars 4280 - 4295 [Proof~~using~(Hp).] 0. secs (0.u,0.s)
Chars 4300 - 4332 [(intros~Hs~[Fd~Hd]~[Fx~Hx]~Hda...] 0.001 secs (0.001u,0.s)
Chars 4333 - 4356 [(unfold~apply_stability).] 0. secs (0.u,0.s)
Chars 4357 - 4366 [(cbv~zeta).] 0. secs (0.u,0.s)
Chars 4367 - 4403 [(destruct~grade_range_val~as~[...] 0.001 secs (0.001u,0.s)
Chars 4408 - 4491 [(destruct~(fsub_btw~x~f_1~0~4)...] 0.009 secs (0.009u,0.s)
Chars 4496 - 4601 [(destruct~(fdiv_btw~(fsub~x~f_...] 0.009 secs (0.009u,0.s)
Chars 4606 - 4739 [(destruct~(fsub_btw~(fdiv~(fsu...] 0.006 secs (0.006u,0.s)
Chars 4744 - 4803 [(set~(p~:=~fsub~(fdiv~(fsub~x~...] 0.001 secs (0.001u,0.s)
Chars 4808 - 4894 [(destruct~(fsub_btw~f_11~d~1~1...] 0.01 secs (0.01u,0.s)
Chars 4899 - 5011 [(destruct~(fdiv_btw~(fsub~f_11...] 0.011 secs (0.011u,0.s)
Chars 5016 - 5055 [(set~(e~:=~fdiv~(fsub~f_11~d)~...] 0.002 secs (0.002u,0.s)
Chars 5060 - 5128 [(destruct~(spacing_gain_btw~po...] 0.003 secs (0.003u,0.s)
Chars 5129 - 5138 [exists~p.] 0. secs (0.u,0.s)
Chars 5139 - 5185 [(set~(g~:=~spacing_gain~powf~t...] 0.002 secs (0.002u,0.s)
Chars 5190 - 5216 [(destruct~Hdays~as~[Fy~Hy]).] 0. secs (0.u,0.s)
Chars 5221 - 5275 [(destruct~(fmin_val~days~f_1)~...] 0.002 secs (0.002u,0.s)
Chars 5280 - 5325 [(assert~(H7'~:~0~<=~val~(fmin~...] 0. secs (0.u,0.s)
Chars 5330 - 5331 [{] 0. secs (0.u,0.s)
Chars 5332 - 5348 [(rewrite~H7,~v_1).] 0. secs (0.u,0.s)
Chars 5349 - 5361 [(unfold~Rmin).] 0. secs (0.u,0.s)
Chars 5362 - 5399 [(destruct~(Rle_dec~(val~days)~...] 0.006 secs (0.006u,0.s)
Chars 5400 - 5401 [}] 0. secs (0.u,0.s)
Chars 5406 - 5503 [(destruct~(fmul_btw~f_2_5~p~(-...] 0.015 secs (0.015u,0.s)
Chars 5508 - 5599 [(destruct~(fmul_btw~(fmul~f_2_...] 0.162 secs (0.161u,0.s)
Chars 5604 - 5707 [(destruct~(fmul_btw~(fmul~(fmu...] 0.17 secs (0.169u,0.s)
Chars 5712 - 5844 [(destruct~(fmul_btw~(fmul~(fmu...] 0.222 secs (0.222u,0.s)
Chars 5849 - 5893 [(set~(growth~:=~fmul~_~(fmin~d...] 0.006 secs (0.006u,0.s)
Chars 5898 - 5992 [(destruct~(fadd_btw~f_1~growth...] 0.131 secs (0.131u,0.s)
Chars 5997 - 6020 [(destruct~Hs~as~[Fs~Hs]).] 0. secs (0.u,0.s)
Chars 6025 - 6130 [(destruct~(fmul_btw~s~(fadd~f_...] 0.9 secs (0.883u,0.004s)
Chars 6135 - 6240 [(assert~(Ep~:~val~p~=~performa...] 0.009 secs (0.009u,0.s)
Chars 6245 - 6327 [(assert~(Ee~:~val~e~=~ease~(va...] 0.007 secs (0.007u,0.s)
Chars 6332 - 6347 [(split;~[~done~|~~]).] 0. secs (0.u,0.s)
Chars 6348 - 6363 [(split;~[~done~|~~]).] 0. secs (0.u,0.s)
Chars 6364 - 6392 [(split;~[~rewrite~<-~Ee;~lra~|...] 0.002 secs (0.002u,0.s)
Chars 6397 - 6516 [(destruct~(fclamp_val~(fmul~s~...] 0.006 secs (0.006u,0.s)
Chars 6521 - 6536 [(split;~[~done~|~~]).] 0. secs (0.u,0.s)
Chars 6537 - 6620 [(rewrite~E14,~v_0_5,~v_730,~E1...] 0.011 secs (0.011u,0.s)
Chars 6621 - 6626 [done.] 0.002 secs (0.002u,0.s)
Chars 6629 - 6633 [Qed.] 0.091 secs (0.091u,0.s)
Chars 6637 - 6759 [Lemma~gain_pos~ty~days~s~p~:~~...] 0.001 secs (0.001u,0.s)
Chars 6762 - 6777 [Proof~~using~(Hp).] 0. secs (0.u,0.s)
Chars 6778 - 6791 [(intros~Hs~Hd).] 0. secs (0.u,0.s)
Chars 6792 - 6846 [(destruct~(spacing_gain_btw~po...] 0. secs (0.u,0.s)
Chars 6847 - 6851 [lra.] 0.001 secs (0.001u,0.s)
Chars 6852 - 6856 [Qed.] 0.001 secs (0.001u,0.s)
Chars 6859 - 6939 [Lemma~damping_pos~days~:~btw~0...] 0. secs (0.u,0.s)
Chars 6942 - 6954 [Proof~~using~().] 0. secs (0.u,0.s)
Chars 6955 - 6968 [(intros~[_~H]).] 0. secs (0.u,0.s)
Chars 6969 - 6981 [(unfold~Rmin).] 0. secs (0.u,0.s)
Chars 6982 - 7010 [(destruct~(Rle_dec~_~_);~lra).] 0.002 secs (0.002u,0.s)
Chars 7011 - 7015 [Qed.] 0.001 secs (0.001u,0.s)
Chars 7019 - 7202 [Lemma~apply_good~ty~s~d~x~days...] 0. secs (0.u,0.s)
Chars 7205 - 7220 [Proof~~using~(Hp).] 0. secs (0.u,0.s)
Chars 7225 - 7247 [(intros~Hs~Hd~Hx~Hy~H3).] 0. secs (0.u,0.s)
Chars 7248 - 7334 [(destruct~(apply_stability_val...] 0.002 secs (0.002u,0.s)
Chars 7339 - 7378 [(rewrite~<-~(grown_0~s)~~at~1~...] 0.029 secs (0.029u,0.s)
Chars 7379 - 7417 [(apply~grown_mono;~[~destruct~...] 0.001 secs (0.001u,0.s)
Chars 7422 - 7487 [(apply~growth_pos;~[~~|~done~|...] 0. secs (0.u,0.s)
Chars 7488 - 7512 [(rewrite~<-~performance_3).] 0. secs (0.u,0.s)
Chars 7513 - 7539 [by~apply~performance_mono.] 0. secs (0.u,0.s)
Chars 7542 - 7546 [Qed.] 0.004 secs (0.004u,0.s)
Chars 7549 - 7732 [Lemma~apply_poor~ty~s~d~x~days...] 0.001 secs (0.001u,0.s)
Chars 7735 - 7750 [Proof~~using~(Hp).] 0. secs (0.u,0.s)
Chars 7755 - 7777 [(intros~Hs~Hd~Hx~Hy~H3).] 0. secs (0.u,0.s)
Chars 7778 - 7864 [(destruct~(apply_stability_val...] 0.002 secs (0.002u,0.s)
Chars 7869 - 7908 [(rewrite~<-~(grown_0~s)~~at~2~...] 0.026 secs (0.026u,0.s)
Chars 7909 - 7947 [(apply~grown_mono;~[~destruct~...] 0.001 secs (0.001u,0.s)
Chars 7952 - 8017 [(apply~growth_neg;~[~~|~done~|...] 0. secs (0.u,0.s)
Chars 8018 - 8042 [(rewrite~<-~performance_3).] 0. secs (0.u,0.s)
Chars 8043 - 8069 [by~apply~performance_mono.] 0. secs (0.u,0.s)
Chars 8072 - 8076 [Qed.] 0.003 secs (0.003u,0.s)
Chars 8148 - 8294 [Lemma~gain_same~ty~days~s~p~p'...] 0. secs (0.u,0.s)
Chars 8297 - 8309 [Proof~~using~().] 0. secs (0.u,0.s)
Chars 8314 - 8331 [(intros~F~F'~H~H').] 0. secs (0.u,0.s)
Chars 8332 - 8352 [(unfold~spacing_gain).] 0. secs (0.u,0.s)
Chars 8357 - 8439 [(assert~(E~:~fle~p~fzero~=~fal...] 0.001 secs (0.001u,0.s)
Chars 8444 - 8528 [(assert~(E'~:~fle~p'~fzero~=~f...] 0.001 secs (0.001u,0.s)
Chars 8529 - 8546 [by~rewrite~E,~E'.] 0.004 secs (0.004u,0.s)
Chars 8549 - 8553 [Qed.] 0.001 secs (0.001u,0.s)
Chars 8556 - 8650 [Lemma~gain_one~ty~days~s~p~:~~...] 0. secs (0.u,0.s)
Chars 8653 - 8665 [Proof~~using~().] 0. secs (0.u,0.s)
Chars 8670 - 8681 [(intros~F~H).] 0. secs (0.u,0.s)
Chars 8682 - 8702 [(unfold~spacing_gain).] 0. secs (0.u,0.s)
Chars 8703 - 8783 [(assert~(E~:~fle~p~fzero~=~tru...] 0.001 secs (0.001u,0.s)
Chars 8784 - 8794 [(rewrite~E).] 0. secs (0.u,0.s)
Chars 8795 - 8805 [(apply~v_1).] 0. secs (0.u,0.s)
Chars 8808 - 8812 [Qed.] 0. secs (0.u,0.s)
Chars 8815 - 9059 [Lemma~apply_better~ty~s~d~x~x'...] 0.001 secs (0.001u,0.s)
Chars 9062 - 9077 [Proof~~using~(Hp).] 0. secs (0.u,0.s)
Chars 9082 - 9107 [(intros~Hs~Hd~Hx~Hx'~Hy~H).] 0. secs (0.u,0.s)
Chars 9108 - 9151 [(pose~proof~(performance_mono~...] 0. secs (0.u,0.s)
Chars 9156 - 9215 [(destruct~(Rle_lt_dec~(perform...] 0.001 secs (0.001u,0.s)
Chars 9220 - 9221 [-] 0. secs (0.u,0.s)
Chars 9222 - 9284 [(destruct~(Rle_lt_dec~(perform...] 0.001 secs (0.001u,0.s)
Chars 9291 - 9292 [+] 0. secs (0.u,0.s)
Chars 9293 - 9381 [(destruct~(apply_stability_val...] 0.002 secs (0.002u,0.s)
Chars 9390 - 9482 [(destruct~(apply_stability_val...] 0.002 secs (0.002u,0.s)
Chars 9491 - 9526 [(rewrite~!gain_one~by~done~||~...] 0.011 secs (0.011u,0.s)
Chars 9527 - 9565 [(apply~grown_mono;~[~destruct~...] 0.001 secs (0.001u,0.s)
Chars 9566 - 9624 [(apply~growth_mono_p;~[~done~|...] 0.001 secs (0.001u,0.s)
Chars 9631 - 9632 [+] 0. secs (0.u,0.s)
Chars 9633 - 9697 [(assert~(L1~:~val~(apply_stabi...] 0. secs (0.u,0.s)
Chars 9706 - 9707 [{] 0. secs (0.u,0.s)
Chars 9708 - 9796 [(destruct~(apply_stability_val...] 0.002 secs (0.002u,0.s)
Chars 9807 - 9846 [(rewrite~<-~(grown_0~s)~~at~2~...] 0.045 secs (0.045u,0.s)
Chars 9847 - 9885 [(apply~grown_mono;~[~destruct~...] 0.001 secs (0.001u,0.s)
Chars 9896 - 9965 [(apply~growth_neg;~[~done~|~do...] 0.001 secs (0.001u,0.s)
Chars 9966 - 9967 [}] 0. secs (0.u,0.s)
Chars 9976 - 10041 [(assert~(L2~:~val~s~<=~val~(ap...] 0. secs (0.u,0.s)
Chars 10050 - 10051 [{] 0. secs (0.u,0.s)
Chars 10052 - 10142 [(destruct~(apply_stability_val...] 0.002 secs (0.002u,0.s)
Chars 10153 - 10192 [(rewrite~<-~(grown_0~s)~~at~1~...] 0.024 secs (0.024u,0.s)
Chars 10193 - 10231 [(apply~grown_mono;~[~destruct~...] 0.001 secs (0.001u,0.s)
Chars 10242 - 10310 [(apply~growth_pos;~[~lra~|~don...] 0.002 secs (0.002u,0.s)
Chars 10311 - 10312 [}] 0. secs (0.u,0.s)
Chars 10321 - 10325 [lra.] 0.001 secs (0.001u,0.s)
Chars 10330 - 10331 [-] 0. secs (0.u,0.s)
Chars 10332 - 10420 [(destruct~(apply_stability_val...] 0.002 secs (0.002u,0.s)
Chars 10427 - 10519 [(destruct~(apply_stability_val...] 0.002 secs (0.002u,0.s)
Chars 10526 - 10578 [(rewrite~(gain_same~ty~days~s~...] 0.009 secs (0.009u,0.s)
Chars 10579 - 10617 [(apply~grown_mono;~[~destruct~...] 0.001 secs (0.001u,0.s)
Chars 10624 - 10696 [(apply~growth_mono_p;~~~[~done...] 0.001 secs (0.001u,0.s)
Chars 10699 - 10703 [Qed.] 0.174 secs (0.174u,0.s)
Chars 10707 - 11017 [Lemma~difficulty_val~d~b~x~:~~...] 0.001 secs (0.001u,0.s)
Chars 11020 - 11032 [Proof~~using~().] 0. secs (0.u,0.s)
Chars 11037 - 11068 [(intros~[Fd~Hd]~[Fb~Hb]~[Fs~Hs]).] 0.002 secs (0.002u,0.s)
Chars 11069 - 11094 [(unfold~update_difficulty).] 0. secs (0.u,0.s)
Chars 11095 - 11104 [(cbv~zeta).] 0. secs (0.u,0.s)
Chars 11105 - 11141 [(destruct~grade_range_val~as~[...] 0.002 secs (0.002u,0.s)
Chars 11146 - 11172 [(pose~proof~v_1_05~as~H105).] 0. secs (0.u,0.s)
Chars 11173 - 11198 [(pose~proof~v_0_16~as~H16).] 0. secs (0.u,0.s)
Chars 11203 - 11289 [(destruct~(fsub_btw~f_3~x~(-~2...] 0.01 secs (0.01u,0.s)
Chars 11294 - 11402 [(destruct~(fdiv_btw~(fsub~f_3~...] 0.011 secs (0.011u,0.s)
Chars 11407 - 11520 [(destruct~(fmul_btw~(fdiv~(fsu...] 0.052 secs (0.052u,0.s)
Chars 11525 - 11641 [(destruct~(fadd_btw~d~(fmul~(f...] 0.013 secs (0.013u,0.s)
Chars 11646 - 11671 [(set~(y~:=~fadd~d~_)~in~*).] 0.005 secs (0.005u,0.s)
Chars 11676 - 11762 [(destruct~(fclamp_val~y~f_1~f_...] 0.004 secs (0.004u,0.s)
Chars 11767 - 11852 [(destruct~(fclamp_btw~y~f_1~f_...] 0.004 secs (0.004u,0.s)
Chars 11853 - 11877 [(rewrite~v_1,~v_10~in~H5).] 0. secs (0.u,0.s)
Chars 11882 - 11963 [(destruct~(fmul_btw~f_0_16~b~0...] 0.273 secs (0.273u,0.s)
Chars 11968 - 12056 [(destruct~(fsub_btw~f_1~f_0_16...] 0.011 secs (0.011u,0.s)
Chars 12061 - 12171 [(destruct~(fmul_btw~(fsub~f_1~...] 0.227 secs (0.227u,0.s)
Chars 12176 - 12308 [(destruct~~~(fadd_btw~(fmul~f_...] 0.014 secs (0.014u,0.s)
Chars 12313 - 12352 [(set~(z~:=~fadd~(fmul~f_0_16~b...] 0.008 secs (0.008u,0.s)
Chars 12357 - 12445 [(destruct~(fclamp_val~z~f_1~f_...] 0.006 secs (0.006u,0.s)
Chars 12450 - 12464 [(split;~[~~|~lra~]).] 0.002 secs (0.002u,0.s)
Chars 12465 - 12529 [(rewrite~E10,~E9,~E8,~E6,~E5,~...] 0.021 secs (0.021u,0.s)
Chars 12530 - 12535 [done.] 0.002 secs (0.002u,0.s)
Chars 12538 - 12542 [Qed.] 0.063 secs (0.063u,0.s)
Chars 12545 - 12727 [Lemma~difficulty_better~d~b~x~...] 0.001 secs (0.001u,0.s)
Chars 12730 - 12742 [Proof~~using~().] 0. secs (0.u,0.s)
Chars 12747 - 12769 [(intros~Hd~Hb~Hx~Hx'~H).] 0. secs (0.u,0.s)
Chars 12770 - 12822 [(destruct~(difficulty_val~d~b~...] 0.002 secs (0.002u,0.s)
Chars 12823 - 12876 [(destruct~(difficulty_val~d~b~...] 0.004 secs (0.004u,0.s)
Chars 12881 - 12907 [(pose~proof~v_1_05~as~H105).] 0. secs (0.u,0.s)
Chars 12912 - 13016 [(apply~Rle_min_compat_r,~Rle_m...] 0.004 secs (0.004u,0.s)
Chars 13021 - 13124 [(apply~Rle_min_compat_r,~Rle_m...] 0.006 secs (0.006u,0.s)
Chars 13129 - 13142 [(apply~rnd_le).] 0. secs (0.u,0.s)
Chars 13143 - 13196 [(assert~(rnd~(3~-~val~x')~<=~r...] 0.002 secs (0.002u,0.s)
Chars 13197 - 13210 [(apply~rnd_le).] 0. secs (0.u,0.s)
Chars 13211 - 13215 [lra.] 0. secs (0.u,0.s)
Chars 13218 - 13222 [Qed.] 0.011 secs (0.011u,0.s)
Chars 13253 - 13362 [Lemma~replay_cons~ty~base~t~l~...] 0. secs (0.u,0.s)
Chars 13365 - 13377 [Proof~~using~().] 0. secs (0.u,0.s)
Chars 13378 - 13392 [(unfold~replay).] 0. secs (0.u,0.s)
Chars 13393 - 13403 [(cbn[rev]).] 0. secs (0.u,0.s)
Chars 13404 - 13429 [by~rewrite~fold_left_app.] 0.001 secs (0.001u,0.s)
Chars 13430 - 13434 [Qed.] 0. secs (0.u,0.s)
Chars 13437 - 13795 [Lemma~one_more~ty~base~t~l~:~~...] 0.001 secs (0.001u,0.s)
Chars 13798 - 13810 [Proof~~using~().] 0. secs (0.u,0.s)
Chars 13815 - 13831 [(intros~Hb~Hl~Ht).] 0. secs (0.u,0.s)
Chars 13832 - 13857 [(unfold~compute_stability).] 0. secs (0.u,0.s)
Chars 13858 - 13878 [(rewrite~replay_cons).] 0. secs (0.u,0.s)
Chars 13879 - 13898 [(unfold~replay_step).] 0. secs (0.u,0.s)
Chars 13903 - 13989 [(destruct~(m_previous~(replay~...] 0.003 secs (0.003u,0.s)
Chars 13992 - 13996 [Qed.] 0.001 secs (0.001u,0.s)
Chars 13999 - 14171 [Lemma~replay_btw~ty~base~l~:~~...] 0. secs (0.u,0.s)
Chars 14174 - 14189 [Proof~~using~(Hp).] 0. secs (0.u,0.s)
Chars 14194 - 14207 [(intros~Hb~Hl).] 0. secs (0.u,0.s)
Chars 14208 - 14238 [(apply~replay_ok;~[~done~|~don...] 0. secs (0.u,0.s)
Chars 14239 - 14271 [(eapply~Forall_impl;~[~exact~H...] 0. secs (0.u,0.s)
Chars 14272 - 14281 [(intros~t).] 0. secs (0.u,0.s)
Chars 14282 - 14299 [(apply~graded_btw).] 0.001 secs (0.001u,0.s)
Chars 14302 - 14306 [Qed.] 0. secs (0.u,0.s)
Chars 14309 - 14371 [Lemma~base_btw~base~:~between~...] 0. secs (0.u,0.s)
Chars 14374 - 14386 [Proof~~using~().] 0. secs (0.u,0.s)
Chars 14387 - 14440 [by~apply~between_f;~[~done~|~d...] 0.002 secs (0.002u,0.s)
Chars 14441 - 14445 [Qed.] 0. secs (0.u,0.s)
Chars 14449 - 14648 [Lemma~good_trial~ty~base~t~l~:...] 0. secs (0.u,0.s)
Chars 14651 - 14666 [Proof~~using~(Hp).] 0. secs (0.u,0.s)
Chars 14671 - 14696 [(intros~Hb%base_btw~Hl~Ht).] 0. secs (0.u,0.s)
Chars 14697 - 14793 [(assert~(Hx~:~btw~3~5~(e_val~t...] 0.001 secs (0.001u,0.s)
Chars 14798 - 14873 [(assert~(Hg~:~btw~1~5~(e_val~t...] 0.002 secs (0.002u,0.s)
Chars 14878 - 14927 [(destruct~(replay_btw~ty~base~...] 0. secs (0.u,0.s)
Chars 14932 - 15019 [(destruct~(one_more~ty~base~t~...] 0.002 secs (0.002u,0.s)
Chars 15024 - 15025 [-] 0. secs (0.u,0.s)
Chars 15026 - 15066 [(apply~fle_true;~[~apply~Bs~|~...] 0.001 secs (0.001u,0.s)
Chars 15071 - 15072 [-] 0. secs (0.u,0.s)
Chars 15073 - 15121 [(pose~proof~(days_between_btw~...] 0. secs (0.u,0.s)
Chars 15128 - 15198 [(apply~fle_true;~[~apply~Bs~|~...] 0.003 secs (0.003u,0.s)
Chars 15199 - 15226 [(apply~apply_good;~try~done).] 0.004 secs (0.004u,0.s)
Chars 15227 - 15236 [(apply~Hx).] 0. secs (0.u,0.s)
Chars 15239 - 15243 [Qed.] 0.005 secs (0.005u,0.s)
Chars 15246 - 15445 [Lemma~poor_trial~ty~base~t~l~:...] 0. secs (0.u,0.s)
Chars 15448 - 15463 [Proof~~using~(Hp).] 0. secs (0.u,0.s)
Chars 15468 - 15493 [(intros~Hb%base_btw~Hl~Ht).] 0. secs (0.u,0.s)
Chars 15494 - 15590 [(assert~(Hx~:~btw~1~3~(e_val~t...] 0.001 secs (0.001u,0.s)
Chars 15595 - 15670 [(assert~(Hg~:~btw~1~5~(e_val~t...] 0.001 secs (0.001u,0.s)
Chars 15675 - 15724 [(destruct~(replay_btw~ty~base~...] 0. secs (0.u,0.s)
Chars 15729 - 15816 [(destruct~(one_more~ty~base~t~...] 0.001 secs (0.001u,0.s)
Chars 15821 - 15822 [-] 0. secs (0.u,0.s)
Chars 15823 - 15863 [(apply~fle_true;~[~apply~Bs~|~...] 0.001 secs (0.001u,0.s)
Chars 15868 - 15869 [-] 0. secs (0.u,0.s)
Chars 15870 - 15918 [(pose~proof~(days_between_btw~...] 0. secs (0.u,0.s)
Chars 15925 - 15995 [(apply~fle_true;~[~apply~(appl...] 0.003 secs (0.003u,0.s)
Chars 15996 - 16023 [(apply~apply_poor;~try~done).] 0.004 secs (0.004u,0.s)
Chars 16024 - 16033 [(apply~Hx).] 0. secs (0.u,0.s)
Chars 16036 - 16040 [Qed.] 0.005 secs (0.005u,0.s)
Chars 16043 - 16425 [Lemma~better_trial~ty~base~t~t...] 0.001 secs (0.001u,0.s)
Chars 16428 - 16443 [Proof~~using~(Hp).] 0. secs (0.u,0.s)
Chars 16448 - 16507 [(intros~Hb%base_btw~Hl~Ht%grad...] 0.002 secs (0.002u,0.s)
Chars 16508 - 16557 [(destruct~(replay_btw~ty~base~...] 0.001 secs (0.001u,0.s)
Chars 16562 - 16607 [(apply~fle_true~in~Hle;~[~~|~a...] 0.006 secs (0.006u,0.s)
Chars 16612 - 16642 [(unfold~compute_stability~in~*).] 0. secs (0.u,0.s)
Chars 16643 - 16664 [(rewrite~!replay_cons).] 0.001 secs (0.001u,0.s)
Chars 16665 - 16684 [(unfold~replay_step).] 0. secs (0.u,0.s)
Chars 16685 - 16699 [(rewrite~<-~Ets).] 0.001 secs (0.001u,0.s)
Chars 16704 - 16791 [(destruct~(m_previous~(replay~...] 0.003 secs (0.003u,0.s)
Chars 16796 - 16797 [-] 0. secs (0.u,0.s)
Chars 16798 - 16846 [(pose~proof~(days_between_btw~...] 0. secs (0.u,0.s)
Chars 16847 - 16910 [(assert~(B5~:~btw~1~10~f_5)~by...] 0.002 secs (0.002u,0.s)
Chars 16911 - 16917 [split.] 0. secs (0.u,0.s)
Chars 16924 - 16925 [+] 0. secs (0.u,0.s)
Chars 16926 - 17044 [(apply~fle_true;~~~[~by~~~appl...] 0.007 secs (0.007u,0.s)
Chars 17051 - 17052 [+] 0. secs (0.u,0.s)
Chars 17053 - 17160 [(apply~fle_true;~~~[~by~~~appl...] 0.004 secs (0.004u,0.s)
Chars 17165 - 17166 [-] 0. secs (0.u,0.s)
Chars 17167 - 17221 [(split;~(apply~fle_true;~[~app...] 0.004 secs (0.004u,0.s)
Chars 17224 - 17228 [Qed.] 0.009 secs (0.009u,0.s)
Chars 17252 - 17287 [Context~(Hfall~:~power_falls~p...] 0. secs (0.u,0.s)
Chars 17290 - 17493 [Lemma~gain_mono~ty~d~d'~s~p~:~...] 0. secs (0.u,0.s)
Chars 17496 - 17517 [Proof~~using~((Hfall)~+~(Hp)).] 0. secs (0.u,0.s)
Chars 17522 - 17541 [(intros~Hd~Hd'~Hs~H).] 0. secs (0.u,0.s)
Chars 17542 - 17562 [(unfold~spacing_gain).] 0. secs (0.u,0.s)
Chars 17563 - 17594 [(destruct~(fle~p~fzero);~[~lra...] 0.001 secs (0.001u,0.s)
Chars 17599 - 17673 [(pose~proof~(retrievability_mo...] 0. secs (0.u,0.s)
Chars 17678 - 17740 [(destruct~(retrievability_btw~...] 0.001 secs (0.001u,0.s)
Chars 17741 - 17807 [(destruct~(retrievability_btw~...] 0.001 secs (0.001u,0.s)
Chars 17812 - 17837 [(pose~proof~v_0_65~as~H65).] 0. secs (0.u,0.s)
Chars 17842 - 17952 [(destruct~(fsub_btw~f_1~(retri...] 0.01 secs (0.01u,0.s)
Chars 17957 - 18068 [(destruct~(fmul_btw~f_0_65~(fs...] 0.022 secs (0.022u,0.s)
Chars 18073 - 18208 [(destruct~~~(fadd_btw~f_1~(fmu...] 0.016 secs (0.016u,0.s)
Chars 18213 - 18327 [(destruct~(fsub_btw~f_1~(retri...] 0.009 secs (0.009u,0.s)
Chars 18332 - 18447 [(destruct~(fmul_btw~f_0_65~(fs...] 0.06 secs (0.06u,0.s)
Chars 18452 - 18591 [(destruct~~~(fadd_btw~f_1~(fmu...] 0.012 secs (0.012u,0.s)
Chars 18596 - 18683 [(destruct~(fadd_btw~f_1~f_0_65...] 0.013 secs (0.013u,0.s)
Chars 18688 - 18843 [(destruct~~~(fclamp_val~~~~~~(...] 0.01 secs (0.01u,0.s)
Chars 18848 - 19004 [(destruct~~~(fclamp_val~~~~~~(...] 0.004 secs (0.004u,0.s)
Chars 19009 - 19050 [(apply~Rle_min_compat_r,~Rle_m...] 0. secs (0.u,0.s)
Chars 19051 - 19085 [(rewrite~E3,~E3',~E2,~E2',~E1,...] 0.003 secs (0.003u,0.s)
Chars 19090 - 19157 [(apply~rnd_le,~Rplus_le_compat...] 0.002 secs (0.002u,0.s)
Chars 19158 - 19171 [(apply~rnd_le).] 0. secs (0.u,0.s)
Chars 19172 - 19176 [lra.] 0.001 secs (0.001u,0.s)
Chars 19179 - 19183 [Qed.] 0.03 secs (0.03u,0.s)
Chars 19186 - 19471 [Lemma~apply_later~ty~s~d~x~day...] 0.001 secs (0.001u,0.s)
Chars 19474 - 19495 [Proof~~using~((Hfall)~+~(Hp)).] 0. secs (0.u,0.s)
Chars 19500 - 19528 [(intros~Hs~Hd~Hx~H3~Hy~Hy'~H).] 0. secs (0.u,0.s)
Chars 19533 - 19621 [(destruct~(apply_stability_val...] 0.002 secs (0.002u,0.s)
Chars 19626 - 19718 [(destruct~(apply_stability_val...] 0.003 secs (0.003u,0.s)
Chars 19723 - 19766 [(pose~proof~(performance_mono~...] 0. secs (0.u,0.s)
Chars 19767 - 19795 [(rewrite~performance_3~in~P0).] 0. secs (0.u,0.s)
Chars 19800 - 19920 [(assert~(Hm~:~0~<=~Rmin~(val~d...] 0.001 secs (0.001u,0.s)
Chars 19925 - 19963 [(apply~grown_mono;~[~destruct~...] 0.001 secs (0.001u,0.s)
Chars 19968 - 20027 [(destruct~(Rle_lt_dec~(perform...] 0.004 secs (0.004u,0.s)
Chars 20032 - 20033 [-] 0. secs (0.u,0.s)
Chars 20034 - 20069 [(rewrite~!gain_one~by~done~||~...] 0.012 secs (0.012u,0.s)
Chars 20070 - 20112 [(apply~growth_mono_g;~[~done~|...] 0.001 secs (0.001u,0.s)
Chars 20117 - 20118 [-] 0. secs (0.u,0.s)
Chars 20119 - 20172 [(rewrite~(gain_same~ty~days'~s...] 0.009 secs (0.009u,0.s)
Chars 20173 - 20213 [(apply~growth_mono_g;~[~done~|...] 0. secs (0.u,0.s)
Chars 20220 - 20266 [(split;~[~by~apply~gain_pos~|~...] 0.001 secs (0.001u,0.s)
Chars 20269 - 20273 [Qed.] 0.008 secs (0.008u,0.s)
Chars 20276 - 20540 [Lemma~later_trial~ty~base~t~t'...] 0.001 secs (0.001u,0.s)
Chars 20543 - 20564 [Proof~~using~((Hfall)~+~(Hp)).] 0. secs (0.u,0.s)
Chars 20569 - 20601 [(intros~Hb%base_btw~Hl~Ht~Ev~H...] 0. secs (0.u,0.s)
Chars 20602 - 20698 [(assert~(Hx~:~btw~3~5~(e_val~t...] 0.001 secs (0.001u,0.s)
Chars 20703 - 20778 [(assert~(Hg~:~btw~1~5~(e_val~t...] 0.002 secs (0.002u,0.s)
Chars 20783 - 20832 [(destruct~(replay_btw~ty~base~...] 0.001 secs (0.001u,0.s)
Chars 20833 - 20863 [(unfold~compute_stability~in~*).] 0. secs (0.u,0.s)
Chars 20864 - 20885 [(rewrite~!replay_cons).] 0.001 secs (0.001u,0.s)
Chars 20886 - 20905 [(unfold~replay_step).] 0. secs (0.u,0.s)
Chars 20906 - 20917 [(rewrite~Ev).] 0. secs (0.u,0.s)
Chars 20922 - 21009 [(destruct~(m_previous~(replay~...] 0.002 secs (0.002u,0.s)
Chars 21014 - 21015 [-] 0. secs (0.u,0.s)
Chars 21016 - 21064 [(pose~proof~(days_between_btw~...] 0. secs (0.u,0.s)
Chars 21065 - 21115 [(pose~proof~(days_between_btw~...] 0. secs (0.u,0.s)
Chars 21122 - 21219 [(apply~fle_true;~~~[~by~~~appl...] 0.006 secs (0.006u,0.s)
Chars 21226 - 21285 [(apply~apply_later;~try~done;~...] 0.009 secs (0.009u,0.s)
Chars 21290 - 21291 [-] 0. secs (0.u,0.s)
Chars 21292 - 21325 [(apply~fle_true;~[~apply~Bs..~...] 0.002 secs (0.002u,0.s)
Chars 21328 - 21332 [Qed.] 0.006 secs (0.006u,0.s)
Chars 21333 - 21344 [End~memory.] 0.002 secs (0.002u,0.s)
