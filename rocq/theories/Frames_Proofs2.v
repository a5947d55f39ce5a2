(** Each rotation of the definitions, and their products. *)
From Coq Require Import Reals Lra Lia ZArith String Bool.
From Coq Require Import List.
From Verif Require Import Real_Math Vector_Model Geo_Model Geo_Spec Pi_Bounds Frames_Model Frames_Spec Frames_Proofs.
Import ListNotations.
Open Scope R_scope.

Lemma base0 : trig (arcseconds (28821062149181 / 25000000000)) (fixed 9999843808083452923711) (fixed 55891089943091386620) (1 / 10 ^ 19).
Proof. base check1 5589138093612462169613%positive. Qed.
Lemma tr0 : trig (arcseconds 1152.84248596724) (fixed 9999843808083452923711) (fixed 55891089943091386620) (1 / 10 ^ 19).
Proof. eapply trig_eq; [|exact base0]. unfold arcseconds. lra. Qed.
Lemma base1 : trig (arcseconds (100226108439117 / 100000000000)) (fixed 9999881946023741796683) (fixed 48590797363520965123) (1 / 10 ^ 19).
Proof. base check1 4859098857565184353101%positive. Qed.
Lemma tr1 : trig (arcseconds (- 1002.26108439117)) (fixed 9999881946023741796683) (fixed (-48590797363520965123)) (1 / 10 ^ 19).
Proof. eapply trig_eq; [|exact (trig_fixed_opp _ _ _ _ base1)]. unfold arcseconds. lra. Qed.
Lemma base2 : trig (arcseconds (11530406620033 / 10000000000)) (fixed 9999843754379542571661) (fixed 55900697638353804902) (1 / 10 ^ 19).
Proof. base check1 5590098878147961617072%positive. Qed.
Lemma tr2 : trig (arcseconds 1153.0406620033) (fixed 9999843754379542571661) (fixed 55900697638353804902) (1 / 10 ^ 19).
Proof. eapply trig_eq; [|exact base2]. unfold arcseconds. lra. Qed.
Lemma base3 : trig (arcseconds (21 / 40)) (fixed 9999999999967607956663) (fixed 25452718258223157) (1 / 10 ^ 19).
Proof. base check0 2545271825825063966%positive. Qed.
Lemma tr3 : trig (arcseconds 0.525) (fixed 9999999999967607956663) (fixed 25452718258223157) (1 / 10 ^ 19).
Proof. eapply trig_eq; [|exact base3]. unfold arcseconds. lra. Qed.
Lemma base4 : trig (arcseconds (10631 / 20000)) (fixed 9999999999966794656064) (fixed 25770271219348862) (1 / 10 ^ 19).
Proof. base check0 2577027121937738574%positive. Qed.
Lemma tr4 : trig (arcseconds 0.53155) (fixed 9999999999966794656064) (fixed 25770271219348862) (1 / 10 ^ 19).
Proof. eapply trig_eq; [|exact base4]. unfold arcseconds. lra. Qed.
Lemma base5 : trig (arcseconds (4107 / 10000)) (fixed 9999999999980177010830) (fixed 19911297883155487) (1 / 10 ^ 19).
Proof. base check0 1991129788316864326%positive. Qed.
Lemma tr5 : trig (arcseconds 0.4107) (fixed 9999999999980177010830) (fixed 19911297883155487) (1 / 10 ^ 19).
Proof. eapply trig_eq; [|exact base5]. unfold arcseconds. lra. Qed.
Lemma base6 : trig (arcseconds (1359 / 10000)) (fixed 9999999999997829505691) (fixed 6588617926278117) (1 / 10 ^ 19).
Proof. base check0 658861792627859415%positive. Qed.
Lemma tr6 : trig (arcseconds 0.1359) (fixed 9999999999997829505691) (fixed 6588617926278117) (1 / 10 ^ 19).
Proof. eapply trig_eq; [|exact base6]. unfold arcseconds. lra. Qed.
Lemma base7 : trig (arcseconds (191 / 400)) (fixed 9999999999973204214672) (fixed 23149853272959666) (1 / 10 ^ 19).
Proof. base check0 2314985327298034369%positive. Qed.
Lemma tr7 : trig (arcseconds 0.4775) (fixed 9999999999973204214672) (fixed 23149853272959666) (1 / 10 ^ 19).
Proof. eapply trig_eq; [|exact base7]. unfold arcseconds. lra. Qed.
Lemma base8 : trig (arcseconds (147 / 250)) (fixed 9999999999959367420838) (fixed 28507044449202106) (1 / 10 ^ 19).
Proof. base check0 2850704444924071642%positive. Qed.
Lemma tr8 : trig (arcseconds 0.588) (fixed 9999999999959367420838) (fixed 28507044449202106) (1 / 10 ^ 19).
Proof. eapply trig_eq; [|exact base8]. unfold arcseconds. lra. Qed.
Lemma base9 : trig (arcseconds (5529 / 10000)) (fixed 9999999999964073664781) (fixed 26805348428514144) (1 / 10 ^ 19).
Proof. base check0 2680534842854624509%positive. Qed.
Lemma tr9 : trig (arcseconds 0.5529) (fixed 9999999999964073664781) (fixed 26805348428514144) (1 / 10 ^ 19).
Proof. eapply trig_eq; [|exact base9]. unfold arcseconds. lra. Qed.
Lemma base10 : trig (arcseconds (1329 / 2500)) (fixed 9999999999966788408880) (fixed 25772695287754402) (1 / 10 ^ 19).
Proof. base check0 2577269528778293342%positive. Qed.
Lemma tr10 : trig (arcseconds 0.5316) (fixed 9999999999966788408880) (fixed 25772695287754402) (1 / 10 ^ 19).
Proof. eapply trig_eq; [|exact base10]. unfold arcseconds. lra. Qed.
Lemma base11 : trig (arcseconds (2877 / 5000)) (fixed 9999999999961090159271) (fixed 27896179211006520) (1 / 10 ^ 19).
Proof. base check0 2789617921104270107%positive. Qed.
Lemma tr11 : trig (arcseconds 0.5754) (fixed 9999999999961090159271) (fixed 27896179211006520) (1 / 10 ^ 19).
Proof. eapply trig_eq; [|exact base11]. unfold arcseconds. lra. Qed.
Lemma base12 : trig (arcseconds (5247 / 10000)) (fixed 9999999999967644965564) (fixed 25438173847789918) (1 / 10 ^ 19).
Proof. base check0 2543817384781735358%positive. Qed.
Lemma tr12 : trig (arcseconds 0.5247) (fixed 9999999999967644965564) (fixed 25438173847789918) (1 / 10 ^ 19).
Proof. eapply trig_eq; [|exact base12]. unfold arcseconds. lra. Qed.
Lemma base13 : trig (arcseconds (118800 / 1)) (fixed 8386705679454240296389) (fixed 5446390350150270822221) (1 / 10 ^ 19).
Proof. base check4 575958653158128760382500%positive. Qed.
Lemma tr13 : trig (arcseconds 1177200) (fixed 8386705679454240296389) (fixed (-5446390350150270822221)) (1 / 10 ^ 19).
Proof. eapply trig_eq; [|exact (trig_turn _ _ _ _ (trig_fixed_opp _ _ _ _ base13))]. unfold arcseconds. lra. Qed.
Lemma base14 : trig (arcseconds (98640 / 1)) (fixed 8878153851364013320821) (fixed 4601997847838516456724) (1 / 10 ^ 19).
Proof. base check4 478220215046446304075167%positive. Qed.
Lemma tr14 : trig (arcseconds 225360) (fixed 4601997847838516456724) (fixed 8878153851364013320821) (1 / 10 ^ 19).
Proof. eapply trig_eq; [|exact (trig_quarter _ _ _ _ base14)]. unfold arcseconds. lra. Qed.
Lemma base15 : trig (arcseconds (44100 / 1)) (fixed 9772311064626788700552) (fixed 2121776721564462728853) (1 / 10 ^ 19).
Proof. base check4 213802833369305373172292%positive. Qed.
Lemma tr15 : trig (arcseconds 1016100) (fixed 2121776721564462728853) (fixed (-9772311064626788700552)) (1 / 10 ^ 19).
Proof. eapply trig_eq; [|exact (trig_turn _ _ _ _ (trig_fixed_opp _ _ _ _ (trig_quarter _ _ _ _ base15)))]. unfold arcseconds. lra. Qed.
Lemma tr16 : trig (arcseconds 324000) (fixed 0) (fixed K) (1 / 10 ^ 19).
Proof. replace (arcseconds 324000) with (PI / 2) by (unfold arcseconds; lra). replace (fixed 0) with 0 by (unfold fixed, K; lra). replace (fixed K) with 1 by (unfold fixed, K; lra). unfold trig. rewrite cos_PI2, sin_PI2, !Rminus_eq_0, Rabs_R0. lra. Qed.
Lemma base16 : trig (arcseconds (668052 / 5)) (fixed 7974365135003685749843) (fixed 6034028562547383960213) (1 / 10 ^ 19).
Proof. base check4 647761498585175479176852%positive. Qed.
Lemma tr17 : trig (arcseconds 133610.4) (fixed 7974365135003685749843) (fixed 6034028562547383960213) (1 / 10 ^ 19).
Proof. eapply trig_eq; [|exact base16]. unfold arcseconds. lra. Qed.
Lemma base17 : trig (arcseconds (761742 / 5)) (fixed 7394078749141458697158) (fixed 6732577474600250116749) (1 / 10 ^ 19).
Proof. base check4 738605886151480333655364%positive. Qed.
Lemma tr18 : trig (arcseconds (- 152348.4)) (fixed 7394078749141458697158) (fixed (-6732577474600250116749)) (1 / 10 ^ 19).
Proof. eapply trig_eq; [|exact (trig_fixed_opp _ _ _ _ base17)]. unfold arcseconds. lra. Qed.
Lemma base18 : trig (arcseconds (10547681 / 125)) (fixed 9174820620691818257447) (fixed 3977771559319137015957) (1 / 10 ^ 19).
Proof. base check4 409092804222328937470710%positive. Qed.
Lemma tr19 : trig (arcseconds 84381.448) (fixed 9174820620691818257447) (fixed 3977771559319137015957) (1 / 10 ^ 19).
Proof. eapply trig_eq; [|exact base18]. unfold arcseconds. lra. Qed.
Lemma base19 : trig (arcseconds (21101209 / 250)) (fixed 9174369529261412019644) (fixed 3978811850359317659583) (1 / 10 ^ 19).
Proof. base check4 409206192446066835748891%positive. Qed.
Lemma tr20 : trig (arcseconds 84404.836) (fixed 9174369529261412019644) (fixed 3978811850359317659583) (1 / 10 ^ 19).
Proof. eapply trig_eq; [|exact base19]. unfold arcseconds. lra. Qed.
Lemma base20 : trig (arcseconds (28817753444313 / 25000000000)) (fixed 9999843843943473812430) (fixed 55884673621752159145) (1 / 10 ^ 19).
Proof. base check1 5588496451457758121060%positive. Qed.
Lemma tr21 : trig (arcseconds 1152.71013777252) (fixed 9999843843943473812430) (fixed 55884673621752159145) (1 / 10 ^ 19).
Proof. eapply trig_eq; [|exact base20]. unfold arcseconds. lra. Qed.
Lemma base21 : trig (arcseconds (100225042010533 / 100000000000)) (fixed 9999881948535965791259) (fixed 48590280350457067561) (1 / 10 ^ 19).
Proof. base check1 4859047155648439406099%positive. Qed.
Lemma tr22 : trig (arcseconds (- 1002.25042010533)) (fixed 9999881948535965791259) (fixed (-48590280350457067561)) (1 / 10 ^ 19).
Proof. eapply trig_eq; [|exact (trig_fixed_opp _ _ _ _ base21)]. unfold arcseconds. lra. Qed.
Lemma base22 : trig (arcseconds (115375719544491 / 100000000000)) (fixed 9999843560128446333398) (fixed 55935435616788757647) (1 / 10 ^ 19).
Proof. base check1 5593572730302611905760%positive. Qed.
Lemma tr23 : trig (arcseconds 1153.75719544491) (fixed 9999843560128446333398) (fixed 55935435616788757647) (1 / 10 ^ 19).
Proof. eapply trig_eq; [|exact base22]. unfold arcseconds. lra. Qed.
Lemma base23 : trig (arcseconds (14409007681733 / 12500000000)) (fixed 9999843841104922114930) (fixed 55885181541775360499) (1 / 10 ^ 19).
Proof. base check1 5588547244253245729767%positive. Qed.
Lemma tr24 : trig (arcseconds 1152.72061453864) (fixed 9999843841104922114930) (fixed 55885181541775360499) (1 / 10 ^ 19).
Proof. eapply trig_eq; [|exact base23]. unfold arcseconds. lra. Qed.
Lemma base24 : trig (arcseconds (100225052830351 / 100000000000)) (fixed 9999881948510477292862) (fixed 48590285595990936044) (1 / 10 ^ 19).
Proof. base check1 4859047680208018757621%positive. Qed.
Lemma tr25 : trig (arcseconds (- 1002.25052830351)) (fixed 9999881948510477292862) (fixed (-48590285595990936044)) (1 / 10 ^ 19).
Proof. eapply trig_eq; [|exact (trig_fixed_opp _ _ _ _ base24)]. unfold arcseconds. lra. Qed.
Lemma base25 : trig (arcseconds (115374663857521 / 100000000000)) (fixed 9999843562991273078502) (fixed 55934923813309431627) (1 / 10 ^ 19).
Proof. base check1 5593521549154009398531%positive. Qed.
Lemma tr26 : trig (arcseconds 1153.74663857521) (fixed 9999843562991273078502) (fixed 55934923813309431627) (1 / 10 ^ 19).
Proof. eapply trig_eq; [|exact base25]. unfold arcseconds. lra. Qed.
Lemma base26 : trig (arcseconds (115303919093833 / 100000000000)) (fixed 9999843754778221857447) (fixed 55900626320225809708) (1 / 10 ^ 19).
Proof. base check1 5590091746223729047180%positive. Qed.
Lemma tr27 : trig (arcseconds 1153.03919093833) (fixed 9999843754778221857447) (fixed 55900626320225809708) (1 / 10 ^ 19).
Proof. eapply trig_eq; [|exact base26]. unfold arcseconds. lra. Qed.
Lemma base27 : trig (arcseconds (50112411191143 / 50000000000)) (fixed 9999881949053348596209) (fixed 48590173872935158676) (1 / 10 ^ 19).
Proof. base check1 4859036507770549035659%positive. Qed.
Lemma tr28 : trig (arcseconds (- 1002.24822382286)) (fixed 9999881949053348596209) (fixed (-48590173872935158676)) (1 / 10 ^ 19).
Proof. eapply trig_eq; [|exact (trig_fixed_opp _ _ _ _ base27)]. unfold arcseconds. lra. Qed.
Lemma base28 : trig (arcseconds (115342900222357 / 100000000000)) (fixed 9999843649116093783722) (fixed 55919524609258145176) (1 / 10 ^ 19).
Proof. base check1 5591981604665081484529%positive. Qed.
Lemma tr29 : trig (arcseconds 1153.42900222357) (fixed 9999843649116093783722) (fixed 55919524609258145176) (1 / 10 ^ 19).
Proof. eapply trig_eq; [|exact base28]. unfold arcseconds. lra. Qed.
Lemma start : close identity (mat_of (ZM K 0 0 0 K 0 0 0 K)) 0. Proof. rewrite <- identity_fixed. apply close_refl. Qed.
Ltac step t l := eapply zstage; [exact t|exact l|vm_compute; reflexivity|lra|lra].
Lemma st0 : close (mxm (turn A3 1153.0406620033) identity) (mat_of (ZM 9999843754379542571661 55900697638353804902 0 (-55900697638353804902) 9999843754379542571661 0 0 0 K)) (30010 / 10 ^ 23).
Proof. step tr2 start. Qed.
Lemma st1 : close (mxm (turn A2 (- 1002.26108439117)) (mxm (turn A3 1153.0406620033) identity)) (mat_of (ZM 9999725702247826045137 55900037708390623380 48590797363520965123 (-55900697638353804902) 9999843754379542571661 0 (-48590038153592706672) (-271625947142470470) 9999881946023741796683)) (93031 / 10 ^ 23).
Proof. step tr1 st0. Qed.
Lemma st2 : close (mxm (turn A3 1152.84248596724) (mxm (turn A2 (- 1002.26108439117)) (mxm (turn A3 1153.0406620033) identity))) (mat_of (ZM 9999257079523629451631 111789381264276917239 48590038414544289227 (-111789381377701351982) 9999375133499887600460 (-271579262585107808) (-48590038153592706672) (-271625947142470470) 9999881946023741796683)) (225376 / 10 ^ 23).
Proof. step tr0 st1. Qed.
Lemma B1950_near : close B1950_def (mat_of (ZM 9999257079523629451631 111789381264276917239 48590038414544289227 (-111789381377701351982) 9999375133499887600460 (-271579262585107808) (-48590038153592706672) (-271625947142470470) 9999881946023741796683)) (225376 / 10 ^ 23).
Proof. exact st2. Qed.
Lemma st3 : close (mxm (turn A3 0.525) B1950_def) (mat_of (ZM 9999256794956876967996 111814832391717934111 48590037723143850629 (-111814832204662909158) 9999374848933135023120 (-271702937440020271) (-48590038153592706672) (-271625947142470470) 9999881946023741796683)) (503300 / 10 ^ 23).
Proof. step tr3 B1950_near. Qed.
Lemma FK4_near : close FK4_def (mat_of (ZM 9999256794956876967996 111814832391717934111 48590037723143850629 (-111814832204662909158) 9999374848933135023120 (-271702937440020271) (-48590038153592706672) (-271625947142470470) 9999881946023741796683)) (503300 / 10 ^ 23).
Proof. exact st3. Qed.
Lemma st4 : close (mxm (turn A3 0.53155) B1950_def) (mat_of (ZM 9999256791406158819929 111815149924827147237 48590037714515818896 (-111815149734023283311) 9999374845382416869053 (-271704480431056158) (-48590038153592706672) (-271625947142470470) 9999881946023741796683)) (503300 / 10 ^ 23).
Proof. step tr4 B1950_near. Qed.
Lemma DE_118_near : close DE_118_def (mat_of (ZM 9999256791406158819929 111815149924827147237 48590037714515818896 (-111815149734023283311) 9999374845382416869053 (-271704480431056158) (-48590038153592706672) (-271625947142470470) 9999881946023741796683)) (503300 / 10 ^ 23).
Proof. exact st4. Qed.
Lemma st5 : close (mxm (turn A3 0.4107) B1950_def) (mat_of (ZM 9999256856916640656643 111809291317748170662 48590037873698409624 (-111809291196111816648) 9999374910892898797296 (-271676011657472053) (-48590038153592706672) (-271625947142470470) 9999881946023741796683)) (503300 / 10 ^ 23).
Proof. step tr5 B1950_near. Qed.
Lemma DE_96_near : close DE_96_def (mat_of (ZM 9999256856916640656643 111809291317748170662 48590037873698409624 (-111809291196111816648) 9999374910892898797296 (-271676011657472053) (-48590038153592706672) (-271625947142470470) 9999881946023741796683)) (503300 / 10 ^ 23).
Proof. exact st5. Qed.
Lemma st6 : close (mxm (turn A3 0.1359) B1950_def) (mat_of (ZM 9999257005867706907306 111795969470478269117 48590038235600542999 (-111795969506121449436) 9999375059843965105243 (-271611276704862523) (-48590038153592706672) (-271625947142470470) 9999881946023741796683)) (503300 / 10 ^ 23).
Proof. step tr6 B1950_near. Qed.
Lemma DE_102_near : close DE_102_def (mat_of (ZM 9999257005867706907306 111795969470478269117 48590038235600542999 (-111795969506121449436) 9999375059843965105243 (-271611276704862523) (-48590038153592706672) (-271625947142470470) 9999881946023741796683)) (503300 / 10 ^ 23).
Proof. exact st6. Qed.
Lemma st7 : close (mxm (turn A3 0.4775) B1950_def) (mat_of (ZM 9999256820706058020145 111812529670693549200 48590037785712080321 (-111812529510824761076) 9999374874682316115215 (-271691747810362507) (-48590038153592706672) (-271625947142470470) 9999881946023741796683)) (503300 / 10 ^ 23).
Proof. step tr7 B1950_near. Qed.
Lemma DE_108_near : close DE_108_def (mat_of (ZM 9999256820706058020145 111812529670693549200 48590037785712080321 (-111812529510824761076) 9999374874682316115215 (-271691747810362507) (-48590038153592706672) (-271625947142470470) 9999881946023741796683)) (503300 / 10 ^ 23).
Proof. exact st7. Qed.
Lemma st8 : close (mxm (turn A3 0.588) B1950_def) (mat_of (ZM 9999256760804513502853 111817886526962180904 48590037640154644369 (-111817886303849620787) 9999374814780771495337 (-271717778422491497) (-48590038153592706672) (-271625947142470470) 9999881946023741796683)) (503300 / 10 ^ 23).
Proof. step tr8 B1950_near. Qed.
Lemma DE_111_near : close DE_111_def (mat_of (ZM 9999256760804513502853 111817886526962180904 48590037640154644369 (-111817886303849620787) 9999374814780771495337 (-271717778422491497) (-48590038153592706672) (-271625947142470470) 9999881946023741796683)) (503300 / 10 ^ 23).
Proof. exact st8. Qed.
Lemma st9 : close (mxm (turn A3 0.5529) B1950_def) (mat_of (ZM 9999256779832373941719 111816184937327387423 48590037686392047071 (-111816184734304025468) 9999374833808631970462 (-271709509875117798) (-48590038153592706672) (-271625947142470470) 9999881946023741796683)) (503300 / 10 ^ 23).
Proof. step tr9 B1950_near. Qed.
Lemma DE_114_near : close DE_114_def (mat_of (ZM 9999256779832373941719 111816184937327387423 48590037686392047071 (-111816184734304025468) 9999374833808631970462 (-271709509875117798) (-48590038153592706672) (-271625947142470470) 9999881946023741796683)) (503300 / 10 ^ 23).
Proof. exact st9. Qed.
Lemma st10 : close (mxm (turn A3 0.5316) B1950_def) (mat_of (ZM 9999256791379054062462 111815152348744011027 48590037714449955870 (-111815152157911530008) 9999374845355312111540 (-271704492209613683) (-48590038153592706672) (-271625947142470470) 9999881946023741796683)) (503300 / 10 ^ 23).
Proof. step tr10 B1950_near. Qed.
Lemma DE_122_near : close DE_122_def (mat_of (ZM 9999256791379054062462 111815152348744011027 48590037714449955870 (-111815152157911530008) 9999374845355312111540 (-271704492209613683) (-48590038153592706672) (-271625947142470470) 9999881946023741796683)) (503300 / 10 ^ 23).
Proof. exact st10. Qed.
Lemma st11 : close (mxm (turn A3 0.5754) B1950_def) (mat_of (ZM 9999256767635060821603 111817275699914166048 48590037656752848255 (-111817275484013112964) 9999374821611318827496 (-271714810225999279) (-48590038153592706672) (-271625947142470470) 9999881946023741796683)) (503300 / 10 ^ 23).
Proof. step tr11 B1950_near. Qed.
Lemma DE_125_near : close DE_125_def (mat_of (ZM 9999256767635060821603 111817275699914166048 48590037656752848255 (-111817275484013112964) 9999374821611318827496 (-271714810225999279) (-48590038153592706672) (-271625947142470470) 9999881946023741796683)) (503300 / 10 ^ 23).
Proof. exact st11. Qed.
Lemma st12 : close (mxm (turn A3 0.5247) B1950_def) (mat_of (ZM 9999256795119505038631 111814817848216746077 48590037723539026481 (-111814817661333423672) 9999374849095763094027 (-271702866768675109) (-48590038153592706672) (-271625947142470470) 9999881946023741796683)) (503300 / 10 ^ 23).
Proof. step tr12 B1950_near. Qed.
Lemma DE_130_near : close DE_130_def (mat_of (ZM 9999256795119505038631 111814817848216746077 48590037723539026481 (-111814817661333423672) 9999374849095763094027 (-271702866768675109) (-48590038153592706672) (-271625947142470470) 9999881946023741796683)) (503300 / 10 ^ 23).
Proof. exact st12. Qed.
Lemma st13 : close (mxm (turn A3 1016100) FK4_def) (mat_of (ZM 2230887962242779465947 (-9747975536708571997932) 10575237656274244075 9747860170730419919661 2230913010843446701464 47426047030467078644 (-48590038153592706672) (-271625947142470470) 9999881946023741796683)) (1086940 / 10 ^ 23).
Proof. step tr15 FK4_near. Qed.
Lemma st14 : close (mxm (turn A1 225360) (mxm (turn A3 1016100) FK4_def)) (mat_of (ZM 2230887962242779465947 (-9747975536708571997932) 10575237656274244075 4442824169236094261932 1026424533766773332520 8899874497864184536488 (-8676661356833737108228) (-1980763896130199989199) 4559837945214198341479)) (2312584 / 10 ^ 23).
Proof. step tr14 st13. Qed.
Lemma st15 : close (mxm (turn A3 1177200) (mxm (turn A1 225360) (mxm (turn A3 1016100) FK4_def))) (mat_of (ZM (-548755393957424216779) (-8734371047275962212754) (-4838349917700252817675) 4941094536277439441464 (-4448295942975750503692) 7469822486998918926214 (-8676661356833737108228) (-1980763896130199989199) 4559837945214198341479)) (4886437 / 10 ^ 23).
Proof. step tr13 st14. Qed.
Lemma GALACTIC_near : close GALACTIC_def (mat_of (ZM (-548755393957424216779) (-8734371047275962212754) (-4838349917700252817675) 4941094536277439441464 (-4448295942975750503692) 7469822486998918926214 (-8676661356833737108228) (-1980763896130199989199) 4559837945214198341479)) (4886437 / 10 ^ 23).
Proof. exact st15. Qed.
Lemma st16 : close (mxm (turn A3 (- 152348.4)) identity) (mat_of (ZM 7394078749141458697158 (-6732577474600250116749) 0 6732577474600250116749 7394078749141458697158 0 0 0 K)) (30010 / 10 ^ 23).
Proof. step tr18 start. Qed.
Lemma st17 : close (mxm (turn A2 133610.4) (mxm (turn A3 (- 152348.4)) identity)) (mat_of (ZM 5896308378262531214225 (-5368803108216339718965) (-6034028562547383960213) 6732577474600250116749 7394078749141458697158 0 4461608236604419486483 (-4062456478130104365729) 7974365135003685749843)) (93031 / 10 ^ 23).
Proof. step tr17 st16. Qed.
Lemma st18 : close (mxm (turn A3 324000) (mxm (turn A2 133610.4) (mxm (turn A3 (- 152348.4)) identity))) (mat_of (ZM 6732577474600250116749 7394078749141458697158 0 (-5896308378262531214225) 5368803108216339718965 6034028562547383960213 4461608236604419486483 (-4062456478130104365729) 7974365135003685749843)) (225376 / 10 ^ 23).
Proof. step tr16 st17. Qed.
Lemma MARSIAU_near : close MARSIAU_def (mat_of (ZM 6732577474600250116749 7394078749141458697158 0 (-5896308378262531214225) 5368803108216339718965 6034028562547383960213 4461608236604419486483 (-4062456478130104365729) 7974365135003685749843)) (225376 / 10 ^ 23).
Proof. exact st18. Qed.
Lemma st19 : close (mxm (turn A1 84381.448) identity) (mat_of (ZM K 0 0 0 9174820620691818257447 3977771559319137015957 0 (-3977771559319137015957) 9174820620691818257447)) (30010 / 10 ^ 23).
Proof. step tr19 start. Qed.
Lemma ECLIPJ2000_near : close ECLIPJ2000_def (mat_of (ZM K 0 0 0 9174820620691818257447 3977771559319137015957 0 (-3977771559319137015957) 9174820620691818257447)) (30010 / 10 ^ 23).
Proof. exact st19. Qed.
Lemma st20 : close (mxm (turn A1 84404.836) B1950_def) (mat_of (ZM 9999257079523629451631 111789381264276917239 48590038414544289227 (-121892771382149245181) 9173688178789827724027 3978515722052201832201 (-99405009203500607) (-3978812427417045748063) 9174369278459981425757)) (503300 / 10 ^ 23).
Proof. step tr20 B1950_near. Qed.
Lemma ECLIPB1950_near : close ECLIPB1950_def (mat_of (ZM 9999257079523629451631 111789381264276917239 48590038414544289227 (-121892771382149245181) 9173688178789827724027 3978515722052201832201 (-99405009203500607) (-3978812427417045748063) 9174369278459981425757)) (503300 / 10 ^ 23).
Proof. exact st20. Qed.
Lemma st21 : close (mxm (turn A3 1153.75719544491) identity) (mat_of (ZM 9999843560128446333398 55935435616788757647 0 (-55935435616788757647) 9999843560128446333398 0 0 0 K)) (30010 / 10 ^ 23).
Proof. step tr23 start. Qed.
Lemma st22 : close (mxm (turn A2 (- 1002.25042010533)) (mxm (turn A3 1153.75719544491) identity)) (mat_of (ZM 9999725510511207711680 55934775290782162333 48590280350457067561 (-55935435616788757647) 9999843560128446333398 0 (-48589520204735389346) (-271791849814470717) 9999881948535965791259)) (93031 / 10 ^ 23).
Proof. step tr22 st21. Qed.
Lemma st23 : close (mxm (turn A3 1152.71013777252) (mxm (turn A2 (- 1002.25042010533)) (mxm (turn A3 1153.75719544491) identity))) (mat_of (ZM 9999256765384667659789 111817701198024792231 48589521583800564633 (-111817701797286941710) 9999374816848700347520 (-271545195857473034) (-48589520204735389346) (-271791849814470717) 9999881948535965791259)) (225376 / 10 ^ 23).
Proof. step tr21 st22. Qed.
Lemma DE_140_near : close DE_140_def (mat_of (ZM 9999256765384667659789 111817701198024792231 48589521583800564633 (-111817701797286941710) 9999374816848700347520 (-271545195857473034) (-48589520204735389346) (-271791849814470717) 9999881948535965791259)) (225376 / 10 ^ 23).
Proof. exact st23. Qed.
Lemma st24 : close (mxm (turn A3 1153.74663857521) identity) (mat_of (ZM 9999843562991273078502 55934923813309431627 0 (-55934923813309431627) 9999843562991273078502 0 0 0 K)) (30010 / 10 ^ 23).
Proof. step tr26 start. Qed.
Lemma st25 : close (mxm (turn A2 (- 1002.25052830351)) (mxm (turn A3 1153.74663857521) identity)) (mat_of (ZM 9999725513348512561033 55934263493202181595 48590285595990936044 (-55934923813309431627) 9999843562991273078502 0 (-48589525464097753680) (-271789392287869968) 9999881948510477292862)) (93031 / 10 ^ 23).
Proof. step tr25 st24. Qed.
Lemma st26 : close (mxm (turn A3 1152.72061453864) (mxm (turn A2 (- 1002.25052830351)) (mxm (turn A3 1153.74663857521) identity))) (mat_of (ZM 9999256765402604679823 111817697320635877090 48589526815459917162 (-111817697907859979963) 9999374816892125926445 (-271547693169866583) (-48589525464097753680) (-271789392287869968) 9999881948510477292862)) (225376 / 10 ^ 23).
Proof. step tr24 st25. Qed.
Lemma DE_142_near : close DE_142_def (mat_of (ZM 9999256765402604679823 111817697320635877090 48589526815459917162 (-111817697907859979963) 9999374816892125926445 (-271547693169866583) (-48589525464097753680) (-271789392287869968) 9999881948510477292862)) (225376 / 10 ^ 23).
Proof. exact st26. Qed.
Lemma st27 : close (mxm (turn A3 1153.42900222357) identity) (mat_of (ZM 9999843649116093783722 55919524609258145176 0 (-55919524609258145176) 9999843649116093783722 0 0 0 K)) (30010 / 10 ^ 23).
Proof. step tr29 start. Qed.
Lemma st28 : close (mxm (turn A2 (- 1002.24822382286)) (mxm (turn A3 1153.42900222357) identity)) (mat_of (ZM 9999725600015179365422 55918864473976503237 48590173872935158676 (-55919524609258145176) 9999843649116093783722 0 (-48589414161271739661) (-271713942365572976) 9999881949053348596209)) (93031 / 10 ^ 23).
Proof. step tr28 st27. Qed.
Lemma st29 : close (mxm (turn A3 1153.03919093833) (mxm (turn A2 (- 1002.24822382286)) (mxm (turn A3 1153.42900222357) identity))) (mat_of (ZM 9999256765435851190215 111817743077430573269 48589414674685857150 (-111817743300530151307) 9999374816382502383193 (-271622115250574760) (-48589414161271739661) (-271713942365572976) 9999881949053348596209)) (225376 / 10 ^ 23).
Proof. step tr27 st28. Qed.
Lemma DE_143_near : close DE_143_def (mat_of (ZM 9999256765435851190215 111817743077430573269 48589414674685857150 (-111817743300530151307) 9999374816382502383193 (-271622115250574760) (-48589414161271739661) (-271713942365572976) 9999881949053348596209)) (225376 / 10 ^ 23).
Proof. exact st29. Qed.

Lemma close_sym A B e : close A B e -> close B A e.
Proof. intros ((A1 & A2 & A3) & (A4 & A5 & A6) & (A7 & A8 & A9)). unfold close, vclose. repeat split; rewrite Rabs_minus_sym; assumption. Qed.
Lemma close_mono A B d e : close A B d -> d <= e -> close A B e.
Proof. intros ((A1 & A2 & A3) & (A4 & A5 & A6) & (A7 & A8 & A9)) H. unfold close, vclose. repeat split; eapply Rle_trans; try exact H; assumption. Qed.
Ltac table l := eapply close_mono; [eapply (close_trans _ _ _ (2 / 10 ^ 16)); [|apply close_sym; exact l]; unfold close, vclose, mat_of, fixed, K; cbn [r1 r2 r3 vx vy vz z11 z12 z13 z21 z22 z23 z31 z32 z33]; repeat split; apply Rabs_le; split; lra|lra].
Definition agree (x y : string * mat) : Prop := fst x = fst y /\ close (snd x) (snd y) (3 / 10 ^ 16).
Lemma identical A : close A A (3 / 10 ^ 16). Proof. eapply close_mono; [apply close_refl|lra]. Qed.
Lemma tables_agree : Forall2 agree inertial_frames definitions.
Proof.
  unfold inertial_frames, definitions.
  constructor; [split; [reflexivity|apply identical]|].
  constructor; [split; [reflexivity|cbn [snd]; table B1950_near]|].
  constructor; [split; [reflexivity|cbn [snd]; table FK4_near]|].
  constructor; [split; [reflexivity|cbn [snd]; table DE_118_near]|].
  constructor; [split; [reflexivity|cbn [snd]; table DE_96_near]|].
  constructor; [split; [reflexivity|cbn [snd]; table DE_102_near]|].
  constructor; [split; [reflexivity|cbn [snd]; table DE_108_near]|].
  constructor; [split; [reflexivity|cbn [snd]; table DE_111_near]|].
  constructor; [split; [reflexivity|cbn [snd]; table DE_114_near]|].
  constructor; [split; [reflexivity|cbn [snd]; table DE_122_near]|].
  constructor; [split; [reflexivity|cbn [snd]; table DE_125_near]|].
  constructor; [split; [reflexivity|cbn [snd]; table DE_130_near]|].
  constructor; [split; [reflexivity|cbn [snd]; table GALACTIC_near]|].
  constructor; [split; [reflexivity|apply identical]|].
  constructor; [split; [reflexivity|apply identical]|].
  constructor; [split; [reflexivity|cbn [snd]; table MARSIAU_near]|].
  constructor; [split; [reflexivity|cbn [snd]; table ECLIPJ2000_near]|].
  constructor; [split; [reflexivity|cbn [snd]; table ECLIPB1950_near]|].
  constructor; [split; [reflexivity|cbn [snd]; table DE_140_near]|].
  constructor; [split; [reflexivity|cbn [snd]; table DE_142_near]|].
  constructor; [split; [reflexivity|cbn [snd]; table DE_143_near]|].
  constructor.
Qed.
