(** * The table files that come with the program (Tables/), character by character
    Each file is the list of its lines; every line, also the last one, ends with a line feed. *)
From Coq Require Import String List.
Import ListNotations.
Local Open Scope string_scope.

(** Tables/hsokolov.table 1-501. *)
Definition hsokolov_lines : list string := [
"500 ";
"-5 0.7189960759048358";
"-4.987975951903808 0.7189959234513367";
"-4.975951903807616 0.7189957678439705";
"-4.963927855711423 0.7189956104838132";
"-4.95190380761523 0.7189954506071293";
"-4.939879759519038 0.7189952882632514";
"-4.927855711422846 0.7189951237443761";
"-4.915831663326653 0.7189949562344649";
"-4.903807615230461 0.7189947858368275";
"-4.891783567134269 0.7189946139915568";
"-4.8797595190380765 0.7189945275719337";
"-4.867735470941883 0.718994950584725";
"-4.855711422845691 0.7189947487798216";
"-4.843687374749499 0.7189945440625286";
"-4.831663326653307 0.7189943362874119";
"-4.819639278557114 0.7189941246794036";
"-4.807615230460922 0.7189939109214306";
"-4.7955911823647295 0.718993692793118";
"-4.783567134268537 0.718993471025015";
"-4.771543086172345 0.7189932454391738";
"-4.759519038076152 0.7189930158521184";
"-4.74749498997996 0.7189928289679286";
"-4.735470941883768 0.7189925890614104";
"-4.7234468937875755 0.718992344699526";
"-4.7114228456913825 0.7189920953357408";
"-4.69939879759519 0.7189918423697341";
"-4.687374749498998 0.7189920369906659";
"-4.675350701402806 0.7189909090297446";
"-4.663326653306613 0.7189906498256643";
"-4.651302605210421 0.7189903845113512";
"-4.6392785571142285 0.7189908958160554";
"-4.627254509018036 0.7189905962504234";
"-4.615230460921843 0.718990592388812";
"-4.603206412825651 0.718990273325959";
"-4.591182364729459 0.7189899468352338";
"-4.579158316633267 0.7189896137294162";
"-4.567134268537074 0.7189892736565295";
"-4.5551102204408815 0.7189889264072987";
"-4.543086172344689 0.7189885718020069";
"-4.531062124248497 0.7189884690007923";
"-4.519038076152305 0.7189878396427605";
"-4.507014028056112 0.7189877061134935";
"-4.49498997995992 0.7189870745557644";
"-4.482965931863728 0.7189869096767997";
"-4.470941883767535 0.7189864981775732";
"-4.458917835671342 0.7189855621510252";
"-4.44689378757515 0.7189851464113969";
"-4.434869739478958 0.7189853730331164";
"-4.422845691382766 0.7189849181981435";
"-4.410821643286573 0.7189847892164604";
"-4.398797595190381 0.7189843038281235";
"-4.386773547094188 0.7189838073667523";
"-4.374749498997996 0.7189832995213182";
"-4.362725450901803 0.7189827798445632";
"-4.350701402805611 0.7189822489030939";
"-4.338677354709419 0.7189817053892353";
"-4.326653306613227 0.718981148367988";
"-4.3146292585170345 0.7189805777517264";
"-4.302605210420841 0.7189799934800425";
"-4.290581162324649 0.7189793948744524";
"-4.278557114228457 0.7189787814814699";
"-4.266533066132265 0.7189781540759713";
"-4.254509018036072 0.7189778324251007";
"-4.24248496993988 0.7189768498051997";
"-4.2304609218436875 0.7189764774963908";
"-4.218436873747495 0.7189761793195376";
"-4.206412825651302 0.7189754483000308";
"-4.19438877755511 0.7189747003783337";
"-4.182364729458918 0.7189739336087602";
"-4.170340681362726 0.7189731476014387";
"-4.158316633266533 0.7189723420963712";
"-4.1462925851703405 0.7189713510976836";
"-4.134268537074148 0.7189705090825637";
"-4.122244488977956 0.7189696458791308";
"-4.110220440881764 0.7189687604069595";
"-4.098196392785571 0.7189678520361713";
"-4.086172344689379 0.7189670654487602";
"-4.074148296593187 0.7189661053135636";
"-4.062124248496994 0.7189651202670424";
"-4.050100200400801 0.7189641104911786";
"-4.038076152304609 0.718962789539412";
"-4.026052104208417 0.7189622636458822";
"-4.014028056112225 0.718961377344399";
"-4.002004008016032 0.718960243526262";
"-3.9899799599198396 0.7189590803379077";
"-3.9779559118236474 0.7189578868487327";
"-3.9659318637274548 0.7189566625970695";
"-3.9539078156312626 0.7189555665169983";
"-3.94188376753507 0.7189542724337306";
"-3.929859719438878 0.7189529441847018";
"-3.917835671342685 0.7189516789546253";
"-3.905811623246493 0.7189502780130014";
"-3.8937875751503004 0.7189489137982426";
"-3.881763527054108 0.7189474349319606";
"-3.869739478957916 0.7189460131606228";
"-3.8577154308617234 0.7189444521048075";
"-3.8456913827655312 0.7189429497446117";
"-3.8336673346693386 0.7189413018925902";
"-3.8216432865731464 0.7189396102915067";
"-3.809619238476954 0.7189378735722137";
"-3.7975951903807617 0.7189360903944989";
"-3.785571142284569 0.7189342590454538";
"-3.773547094188377 0.7189323788078852";
"-3.7615230460921842 0.7189306834154643";
"-3.749498997995992 0.7189288961608629";
"-3.7374749498997994 0.7189268474981845";
"-3.7254509018036073 0.7189247444442395";
"-3.7134268537074147 0.7189224877172746";
"-3.7014028056112225 0.71892027329263";
"-3.68937875751503 0.718917998032083";
"-3.6773547094188377 0.7189156606884606";
"-3.6653306613226455 0.7189132600564632";
"-3.653306613226453 0.7189108798674555";
"-3.6412825651302607 0.7189075775151474";
"-3.629258517034068 0.7189061067177653";
"-3.617234468937876 0.7189032892756153";
"-3.6052104208416833 0.7189005347519756";
"-3.593186372745491 0.7188978302021971";
"-3.5811623246492985 0.7188938331806717";
"-3.5691382765531063 0.7188908735717441";
"-3.5571142284569137 0.7188878315747544";
"-3.5450901803607215 0.7188847047265585";
"-3.533066132264529 0.7188814907639612";
"-3.5210420841683367 0.7188781873301912";
"-3.509018036072144 0.7188747919322291";
"-3.496993987975952 0.7188713020416981";
"-3.4849699398797593 0.7188677147499697";
"-3.472945891783567 0.7188640274919998";
"-3.4609218436873745 0.7188602374918887";
"-3.4488977955911824 0.7188563419920612";
"-3.43687374749499 0.7188523373862237";
"-3.4248496993987976 0.7188482239900886";
"-3.4128256513026054 0.71884399438736";
"-3.400801603206413 0.7188396451292142";
"-3.3887775551102206 0.7188351744851676";
"-3.376753507014028 0.7188305791637059";
"-3.364729458917836 0.7188258556430457";
"-3.352705410821643 0.7188210003276733";
"-3.340681362725451 0.7188160094336057";
"-3.3286573146292584 0.7188108790285538";
"-3.3166332665330662 0.7188056054594913";
"-3.3046092184368736 0.7188001846736171";
"-3.2925851703406814 0.7187946124861606";
"-3.280561122244489 0.7187888848623275";
"-3.2685370741482966 0.7187829972311081";
"-3.256513026052104 0.7187769466603348";
"-3.244488977955912 0.7187707263793274";
"-3.2324649298597192 0.7187655144712543";
"-3.220440881763527 0.7187589088719839";
"-3.208416833667335 0.7187521208684989";
"-3.1963927855711423 0.7187451449081829";
"-3.18436873747495 0.7187369169315154";
"-3.1723446893787575 0.7187295781418469";
"-3.1603206412825653 0.718722034504183";
"-3.1482965931863727 0.7187142815165353";
"-3.1362725450901805 0.7187063114281805";
"-3.124248496993988 0.7186981183559785";
"-3.1122244488977957 0.7186896970794455";
"-3.100200400801603 0.7186810406963443";
"-3.088176352705411 0.7186721429387527";
"-3.0761523046092183 0.7186629968618978";
"-3.064128256513026 0.7186535958814799";
"-3.0521042084168335 0.7186439322889501";
"-3.0400801603206413 0.7186339991842585";
"-3.0280561122244487 0.7186237896028997";
"-3.0160320641282565 0.7186132950033488";
"-3.004008016032064 0.7186025075085037";
"-2.9919839679358717 0.7185914205343158";
"-2.9799599198396796 0.7185800239218976";
"-2.967935871743487 0.7185683092242813";
"-2.9559118236472948 0.7185562681318448";
"-2.943887775551102 0.7185438916046858";
"-2.93186372745491 0.7185311719384344";
"-2.9198396793587174 0.7185180972183318";
"-2.907815631262525 0.7185046578489268";
"-2.8957915831663326 0.7184908444986708";
"-2.8837675350701404 0.7184766467327892";
"-2.8717434869739478 0.7184620539533162";
"-2.8597194388777556 0.7184470553281578";
"-2.847695390781563 0.7184316396569419";
"-2.835671342685371 0.7184157955455966";
"-2.823647294589178 0.7183995110108865";
"-2.811623246492986 0.7183827758956367";
"-2.7995991983967934 0.7183655740967712";
"-2.787575150300601 0.7183478945169377";
"-2.775551102204409 0.7183297237688354";
"-2.7635270541082164 0.7183125312843225";
"-2.7515030060120242 0.7182932976255795";
"-2.7394789579158316 0.7182735326365602";
"-2.7274549098196395 0.7182532218471296";
"-2.715430861723447 0.7182325431876491";
"-2.7034068136272547 0.7182110900088403";
"-2.691382765531062 0.7181890450999359";
"-2.67935871743487 0.7181663931040105";
"-2.6673346693386772 0.7181420753756498";
"-2.655310621242485 0.7181181830534912";
"-2.6432865731462925 0.7180936301619668";
"-2.6312625250501003 0.718068398755589";
"-2.6192384769539077 0.7180424706438266";
"-2.6072144288577155 0.7180158266044856";
"-2.595190380761523 0.717988447232223";
"-2.5831663326653307 0.7179603124684575";
"-2.571142284569138 0.717931402033858";
"-2.559118236472946 0.7179016946857616";
"-2.5470941883767537 0.7178711690006248";
"-2.535070140280561 0.7178398023661966";
"-2.523046092184369 0.7178075748172293";
"-2.5110220440881763 0.7177744603015486";
"-2.498997995991984 0.7177404329480883";
"-2.4869739478957915 0.7177054704767252";
"-2.4749498997995993 0.717669547801514";
"-2.4629258517034067 0.717632639061895";
"-2.4509018036072145 0.7175947178275394";
"-2.438877755511022 0.7175557568273699";
"-2.4268537074148298 0.7175157280181237";
"-2.414829659318637 0.7174746030604368";
"-2.402805611222445 0.7174323528117121";
"-2.3907815631262523 0.717388946950843";
"-2.37875751503006 0.717344354902355";
"-2.3667334669338675 0.7172985451059203";
"-2.3547094188376754 0.7172514862476412";
"-2.3426853707414828 0.7172043678946594";
"-2.3306613226452906 0.7171546739149756";
"-2.3186372745490984 0.7171036287396167";
"-2.306613226452906 0.71705119680589";
"-2.2945891783567136 0.7169973412890177";
"-2.282565130260521 0.7169409585344898";
"-2.270541082164329 0.716884171479251";
"-2.258517034068136 0.7168258447548688";
"-2.246492985971944 0.7167659396183327";
"-2.2344689378757514 0.7167044129932301";
"-2.2224448897795592 0.7166412223510028";
"-2.2104208416833666 0.7165763253031572";
"-2.1983967935871744 0.7165096775852238";
"-2.186372745490982 0.7164412339189188";
"-2.1743486973947896 0.7163709475036592";
"-2.162324649298597 0.7162987734912398";
"-2.150300601202405 0.7162246581684524";
"-2.1382765531062122 0.7161485547087366";
"-2.12625250501002 0.7160704120283883";
"-2.1142284569138274 0.7159901784431042";
"-2.1022044088176353 0.7159077993692134";
"-2.090180360721443 0.7158232220448185";
"-2.0781563126252505 0.7157363896341178";
"-2.0661322645290583 0.7156472448838133";
"-2.0541082164328657 0.7155557301370521";
"-2.0420841683366735 0.7154617856228981";
"-2.030060120240481 0.7153653519872288";
"-2.0180360721442887 0.7152663651316921";
"-2.006012024048096 0.715164761452903";
"-1.993987975951904 0.7150604770188963";
"-1.9819639278557115 0.7149534452524321";
"-1.9699398797595191 0.7148435980581994";
"-1.9579158316633267 0.7147308667864903";
"-1.9458917835671343 0.7146151805549272";
"-1.933867735470942 0.7144964674333897";
"-1.9218436873747495 0.7143746537649748";
"-1.9098196392785571 0.7142496661839223";
"-1.8977955911823647 0.7141214255237067";
"-1.8857715430861723 0.7139898538855943";
"-1.87374749498998 0.7138548724110747";
"-1.8617234468937875 0.7137176865460065";
"-1.8496993987975952 0.7135759867320959";
"-1.8376753507014028 0.7134302374785887";
"-1.8256513026052104 0.7132807450541131";
"-1.813627254509018 0.7131274220695389";
"-1.8016032064128256 0.7129701786219425";
"-1.7895791583166332 0.7128089239676576";
"-1.777555110220441 0.7126435674333673";
"-1.7655310621242486 0.7124740119304556";
"-1.7535070140280562 0.7123004455768394";
"-1.7414829659318638 0.71212219632173";
"-1.7294589178356714 0.7119382446762516";
"-1.717434869739479 0.7117509457737619";
"-1.7054108216432866 0.7115589518719228";
"-1.6933867735470942 0.7113621587534558";
"-1.6813627254509018 0.711160460188008";
"-1.6693386773547094 0.7109537486595752";
"-1.657314629258517 0.71074191475989";
"-1.6452905811623246 0.7105248474913874";
"-1.6332665330661322 0.7103024338775431";
"-1.6212424849699398 0.710074561320777";
"-1.6092184368737474 0.7098411139518158";
"-1.597194388777555 0.7096019688952949";
"-1.5851703406813626 0.7093570101449698";
"-1.5731462925851702 0.70910611692953";
"-1.5611222444889779 0.7088491666243951";
"-1.5490981963927857 0.708586035054524";
"-1.5370741482965933 0.7083165965183975";
"-1.5250501002004009 0.7080407237143785";
"-1.5130260521042085 0.7077582880214626";
"-1.501002004008016 0.7074691589669422";
"-1.4889779559118237 0.7071746110227495";
"-1.4769539078156313 0.7068716611151737";
"-1.464929859719439 0.7065616188596352";
"-1.4529058116232465 0.7062430519223092";
"-1.440881763527054 0.7059184530510849";
"-1.4288577154308617 0.7055863474041232";
"-1.4168336673346693 0.7052465968721875";
"-1.404809619238477 0.7048990600778773";
"-1.3927855711422845 0.7045435947531964";
"-1.3807615230460921 0.7041800576541857";
"-1.3687374749498997 0.7038083041395401";
"-1.3567134268537073 0.70342818831033";
"-1.344689378757515 0.7030395643972445";
"-1.3326653306613228 0.702642285005894";
"-1.3206412825651304 0.7022361999361519";
"-1.308617234468938 0.7018211608456919";
"-1.2965931863727456 0.7013970177846209";
"-1.2845691382765532 0.7009636203314003";
"-1.2725450901803608 0.7005208166311201";
"-1.2605210420841684 0.7000684748606564";
"-1.248496993987976 0.6996064022752295";
"-1.2364729458917836 0.6991344661209797";
"-1.2244488977955912 0.6986525129570248";
"-1.2124248496993988 0.6981603900406739";
"-1.2004008016032064 0.6976579424107747";
"-1.188376753507014 0.6971450164242101";
"-1.1763527054108216 0.6966214579015593";
"-1.1643286573146292 0.6960871117474681";
"-1.1523046092184368 0.6955418245295671";
"-1.1402805611222444 0.6949854420962497";
"-1.128256513026052 0.6944178106593162";
"-1.1162324649298596 0.6938387781819467";
"-1.1042084168336674 0.6932481886842832";
"-1.092184368737475 0.692645890272339";
"-1.0801603206412826 0.6920317309694209";
"-1.0681362725450902 0.6914055590327867";
"-1.0561122244488979 0.6907672231877896";
"-1.0440881763527055 0.6901165731392955";
"-1.032064128256513 0.6894534593922061";
"-1.0200400801603207 0.6887777332988263";
"-1.0080160320641283 0.688089247031238";
"-0.9959919839679359 0.6873878554561782";
"-0.9839679358717435 0.6866734107348264";
"-0.9719438877755511 0.6859457682665153";
"-0.9599198396793587 0.6852063417937386";
"-0.9478957915831663 0.6844515757780457";
"-0.935871743486974 0.6836834569657458";
"-0.9238476953907816 0.6829015775494693";
"-0.9118236472945892 0.682106127007826";
"-0.8997995991983968 0.6812965481495865";
"-0.8877755511022044 0.680472558294105";
"-0.875751503006012 0.6796342639924049";
"-0.8637274549098196 0.6787815395553911";
"-0.8517034068136272 0.6779142550094718";
"-0.8396793587174348 0.6770311156312767";
"-0.8276553106212425 0.6761343595447711";
"-0.8156312625250501 0.6752226671352016";
"-0.8036072144288577 0.6742959172784335";
"-0.7915831663326653 0.67335399107408";
"-0.779559118236473 0.6723967715431962";
"-0.7675350701402806 0.6714241438851706";
"-0.7555110220440882 0.6704373090655921";
"-0.7434869739478958 0.6694334980499602";
"-0.7314629258517034 0.6684127003481842";
"-0.7194388777555111 0.6673785589482862";
"-0.7074148296593187 0.6663260302349978";
"-0.6953907815631263 0.665258675328881";
"-0.6833667334669339 0.6641751734705862";
"-0.6713426853707415 0.663075426849677";
"-0.6593186372745491 0.6619593443681316";
"-0.6472945891783567 0.6608268349074653";
"-0.6352705410821643 0.6596778098420211";
"-0.6232464929859719 0.6585121831623115";
"-0.6112224448897795 0.6573298714880693";
"-0.5991983967935872 0.6561307940011532";
"-0.5871743486973948 0.6549148722537123";
"-0.5751503006012024 0.6536820305517553";
"-0.56312625250501 0.652432195743022";
"-0.5511022044088176 0.6511652971489778";
"-0.5390781563126252 0.649881266901678";
"-0.5270541082164328 0.6485800395378586";
"-0.5150300601202404 0.6472615525562789";
"-0.503006012024048 0.6459257468235017";
"-0.4909819639278557 0.644572560927941";
"-0.4789579158316633 0.6432019421115538";
"-0.46693386773547096 0.6418138378528352";
"-0.45490981963927857 0.6404081976132228";
"-0.44288577154308617 0.6389849752578272";
"-0.4308617234468938 0.6375441248163651";
"-0.4188376753507014 0.6360856042433475";
"-0.40681362725450904 0.6346093736502126";
"-0.39478957915831664 0.6331153961511377";
"-0.38276553106212424 0.6316036374704657";
"-0.37074148296593185 0.6300740632584546";
"-0.3587174348697395 0.628526832805611";
"-0.3466933867735471 0.6269615419776203";
"-0.3346693386773547 0.6253783548720165";
"-0.3226452905811623 0.6237772490032513";
"-0.3106212424849699 0.6221582038778551";
"-0.2985971943887776 0.6205212018133224";
"-0.2865731462925852 0.6188662282684577";
"-0.2745490981963928 0.6171932700585187";
"-0.2625250501002004 0.615502315145405";
"-0.250501002004008 0.6137932697478312";
"-0.23847695390781562 0.6120663859905255";
"-0.22645290581162325 0.6103214032363605";
"-0.21442885771543085 0.6085584044034801";
"-0.20240480961923848 0.6067773912869872";
"-0.1903807615230461 0.6049783665522896";
"-0.17835671342685372 0.6031613331525648";
"-0.16633266533066132 0.6013263018833829";
"-0.15430861723446893 0.5994732815223847";
"-0.14228456913827656 0.5976022833815146";
"-0.13026052104208416 0.5957133202383885";
"-0.11823647294589178 0.5938064089746296";
"-0.1062124248496994 0.5918815675555466";
"-0.09418837675350701 0.5899388159382399";
"-0.08216432865731463 0.5879781762430843";
"-0.07014028056112225 0.585999672641534";
"-0.05811623246492986 0.584005339686892";
"-0.04609218436873747 0.5819911422234015";
"-0.03406813627254509 0.5799590314604464";
"-0.022044088176352707 0.5779094323058204";
"-0.01002004008016032 0.5758422725091549";
"0.002004008016032064 0.5737570962299495";
"0.014028056112224449 0.5716541544515845";
"0.026052104208416832 0.5695340334183836";
"0.03807615230460922 0.5673961272407986";
"0.050100200400801605 0.5652407069580132";
"0.06212424849699399 0.5630681930645718";
"0.07414829659318638 0.5608778755813888";
"0.08617234468937876 0.5586702026070474";
"0.09819639278557114 0.5564452553395736";
"0.11022044088176353 0.5542030446890515";
"0.12224448897795591 0.5519434331051407";
"0.1342685370741483 0.5496668809726755";
"0.1462925851703407 0.5473718759129981";
"0.15831663326653306 0.5450611106051949";
"0.17034068136272545 0.542733363874324";
"0.18236472945891782 0.5403886982878437";
"0.19438877755511022 0.538027177875073";
"0.20641282565130262 0.5356488682030062";
"0.218436873747495 0.5332538370226706";
"0.23046092184368738 0.5308421534047412";
"0.24248496993987975 0.5284138861469453";
"0.2545090180360721 0.5259691080312263";
"0.2665330661322645 0.5235094863004963";
"0.2785571142284569 0.5210303140996257";
"0.2905811623246493 0.5185380315071051";
"0.3026052104208417 0.5160279221634646";
"0.31462925851703405 0.5135019854601222";
"0.32665330661322645 0.5109597265165355";
"0.33867735470941884 0.5084018879519004";
"0.35070140280561124 0.5058277320319652";
"0.3627254509018036 0.5032377587232574";
"0.374749498997996 0.5006321040982692";
"0.3867735470941884 0.49801080417312493";
"0.39879759519038077 0.4953739637446756";
"0.41082164328657317 0.49272167136226863";
"0.4228456913827655 0.4900540169665926";
"0.4348697394789579 0.48737184978492226";
"0.4468937875751503 0.48467342946351316";
"0.4589178356713427 0.4819603708243062";
"0.4709418837675351 0.4792321996705456";
"0.48296593186372744 0.4764893592065359";
"0.49498997995991983 0.47373136077751365";
"0.5070140280561122 0.47095891987996913";
"0.5190380761523046 0.46817172505455895";
"0.531062124248497 0.46537030500176857";
"0.5430861723446894 0.4625545129255066";
"0.5551102204408818 0.4597240919741077";
"0.5671342685370742 0.45687946834146786";
"0.5791583166332666 0.45402083936350635";
"0.591182364729459 0.45114810077274825";
"0.6032064128256514 0.4482615830457812";
"0.6152304609218436 0.44536117520615526";
"0.627254509018036 0.4424473956474676";
"0.6392785571142284 0.439519907688677";
"0.6513026052104208 0.4365787508161403";
"0.6633266533066132 0.4336243507077945";
"0.6753507014028056 0.4306565654122903";
"0.687374749498998 0.42767572224163547";
"0.6993987975951904 0.42468173743722";
"0.7114228456913828 0.4216748161485093";
"0.7234468937875751 0.4186553650206245";
"0.7354709418837675 0.4156230319795799";
"0.7474949899799599 0.4125781619516264";
"0.7595190380761523 0.40952060071877117";
"0.7715430861723447 0.40645068169968523";
"0.7835671342685371 0.4033684226872071";
"0.7955911823647295 0.4002760465990931";
"0.8076152304609219 0.3971684038976671";
"0.8196392785571143 0.3940499756019873";
"0.8316633266533067 0.3909197094367714";
"0.843687374749499 0.3877777167866217";
"0.8557114228456913 0.3846241082472385";
"0.8677354709418837 0.3814589944260008";
"0.8797595190380761 0.3782824866945934";
"0.8917835671342685 0.3750946955844402";
"0.9038076152304609 0.37189573238102347";
"0.9158316633266533 0.36868570754947394";
"0.9278557114228457 0.3654647318258799";
"0.9398797595190381 0.3622329162853804";
"0.9519038076152304 0.3589903707650586";
"0.9639278557114228 0.355737205260959";
"0.9759519038076152 0.35247353024992245";
"0.9879759519038076 0.34920066255224697";
"1 0.3459150912836859"].

(** Tables/ksi_sokolov.table 1-102. *)
Definition ksi_sokolov_lines : list string := [
"100	 100	 -5.	 1.";
"0.004993870735451265	0.0054807618431451655	0.006015122525404382	0.006601580403647763	0.007245214227694759	0.007951598317827418	0.008726848419113966	0.009577677996203557	0.010511453005150105	0.011536259244113375	0.012660966064839489	0.013895309498685728	0.015249973916426861	0.01673667974767141	0.018368290109768145	0.020158918254091312	0.02212404685250333	0.024280662743620528	0.026647401494315076	0.029244703619830874	0.032094984747066714	0.03522283028617815	0.038655191141675364	0.0424216191428221	0.04655449442625379	0.05108929610344031	0.05606488075072845	0.061523790309919245	0.06751257301392716	0.07408212395191523	0.08128806920913345	0.0891911166164517	0.09785747939104653	0.10735925414380028	0.11777481541125312	0.1291891995168517	0.14169441035447414	0.15538970458757728	0.1703817336651614	0.18678451769077345	0.20471921234234425	0.22431350629914673	0.2457005909690228	0.26901743801203226	0.2944022604214948	0.3219907482977715	0.3519108071314575	0.3842751600245377	0.4191712884558258	0.4566479159013389	0.4966971928848832	0.5392315761604375	0.5840547605871556	0.6308263817317651	0.6790216311450453	0.7278895607642573	0.7764184598634324	0.8233239199861985	0.8670843729595753	0.9060568803016523	0.9387026533489665	0.9639219369380524	0.9814254543281586	0.9919697368525332	0.9972387257635135	0.9992973202357519	0.9998797369174989	0.9999877850360637	0.9999993621175313	0.999999985452856	1	1	1	1	1	1	1	1	1	1	1	1	1	1	1	1	1	1	1	1	1	1	1	1	1	1	1	1	1	1";
"0.0047669001844152245	0.005231662379031885	0.005741737222076814	0.006301541824226618	0.006915923899211199	0.0075902041767323325	0.008330221910546557	0.009142384489654687	0.010033723857633133	0.01101195681289212	0.012085553729811533	0.013263806898399384	0.014556914590083896	0.015976067739106866	0.01753354490391242	0.019242819622779402	0.021118674083475383	0.023177327818411662	0.025436569104173044	0.027915918655677663	0.03063678162088027	0.03362263086131009	0.03689921373269764	0.040494748565615496	0.04444017109121008	0.04876937542944472	0.0535194963531699	0.0587311908060144	0.06444896081458615	0.07072148848913275	0.0776019854536896	0.08514856841065735	0.09342465038927787	0.10249933714392995	0.11244781320347529	0.12335174041354265	0.13529961951462768	0.14838701241485172	0.16271690009623288	0.1783996169626047	0.1955528047816692	0.21430100303857702	0.23477477852707923	0.2571095035399759	0.28144314965973166	0.30791322295854	0.33665229944292674	0.3677817522977878	0.4014031500506864	0.43758656268764295	0.47635491498591365	0.5176637826084777	0.5613752633848221	0.6072257658094694	0.6547880685368528	0.7034292273875926	0.7522713214352569	0.8001654815649332	0.8457001075685038	0.8872721053719936	0.9232549454401819	0.9522823803009517	0.973616765282518	0.987479766946797	0.9951350517950294	0.9985459975510402	0.9996923887187694	0.9999587380360486	0.9999969609242223	0.9999998913144613	1	1	1	1	1	1	1	1	1	1	1	1	1	1	1	1	1	1	1	1	1	1	1	1	1	1	1	1	1	1";
"0.009803072024904644	0.010675734685643761	0.011626074782060306	0.012661003959015078	0.01378804747484479	0.015015401729842594	0.016351990011767216	0.01780752910689694	0.019392595289640692	0.02111870795413953	0.02299840492249565	0.025045333067010504	0.027274353172763176	0.029701635073397327	0.03234477677809049	0.035222935493017214	0.038356941755170716	0.04176946964375474	0.045485172866575586	0.0495308589996352	0.0539356729392695	0.058731284586964735	0.0639520949925104	0.06963545497189243	0.07582189425926147	0.08255535954610099	0.08988347423170674	0.09785777178029828	0.10653398190412973	0.11597225495897856	0.12623744071739568	0.1373992362512709	0.14953247805975314	0.16271716177905518	0.17703853129983335	0.1925869308603603	0.20945770390474025	0.22775053888054758	0.24756878751956665	0.26901824284711845	0.2922053972114581	0.3172350126919735	0.3442067341989894	0.37321050298526703	0.40432054937863626	0.4375872555249418	0.47302675755734896	0.5106078309200714	0.5502349329321761	0.5917280878280733	0.6347988321154493	0.679023523017478	0.7238163765852801	0.7684070941612439	0.8118316986645224	0.8529499017952876	0.8905067103523495	0.9232559111836304	0.9501535369299197	0.9705999670926386	0.9846621336741593	0.9931598787704194	0.9975053334135214	0.9992974841068922	0.9998581857975746	0.9999813842725792	0.9999986151800558	0.9999999715542262	1	1	1	1	1	1	1	1	1	1	1	1	1	1	1	1	1	1	1	1	1	1	1	1	1	1	1	1	1	1	1	1";
"0.009357538396096864	0.010190544126523357	0.011097696877809166	0.012085595334273832	0.013161424791836934	0.014333008315901763	0.015608864563688523	0.016998270064178936	0.01851132065714246	0.020159015695806262	0.02195332299997904	0.023907275606536906	0.02603505888980469	0.0283521138470197	0.030875247123605704	0.03362274689613192	0.03661451533377444	0.039872203466226865	0.04341936238279348	0.04728160553246659	0.051486778202649595	0.056065151529794584	0.061049608259118676	0.06647586214585385	0.0723826821526565	0.07881211872321225	0.08580975896801168	0.09342497185986305	0.1017111706571156	0.11072606780045349	0.12053188350769406	0.13119569115146978	0.14278949655561785	0.15539045503395435	0.1690809561769116	0.18394858207718157	0.2000860086454015	0.21759060276356582	0.23656384908657913	0.25711038571837597	0.2793365801522609	0.3033484940793314	0.32924903877037764	0.3571340978141392	0.3870873477462289	0.4191732911864663	0.45342819829017256	0.48984851324874235	0.5283760506920776	0.568879660089272	0.6111330779757104	0.6547901848251759	0.6993564573979456	0.744164648276478	0.7883562442437702	0.8308827983422175	0.8705408708418175	0.9060599121414927	0.9362577739760702	0.9602613894210159	0.9777517232974962	0.9891402214020434	0.9955526572974523	0.9985462791650345	0.9996444689400238	0.9999401776596115	0.9999938121585362	0.9999996648437514	1	1	1	1	1	1	1	1	1	1	1	1	1	1	1	1	1	1	1	1	1	1	1	1	1	1	1	1	1	1	1	1";
"0.008932255792984229	0.00972740480182024	0.010593332780839414	0.01153633889566005	0.012563279492000413	0.013681625439615397	0.014899508269963096	0.016225782605416416	0.017670089189364958	0.019242925906620318	0.02095572039423608	0.022820915114881754	0.024852054139623964	0.0270638811110027	0.02947244371426642	0.032095206264733486	0.034951175088528366	0.03806102666570946	0.041447260178100874	0.04513434069144106	0.04914887665989985	0.053519791575577104	0.058278515342714284	0.06345919351466195	0.06909889900379923	0.07523786671395774	0.08191971877825328	0.08919173259149753	0.09710508202332307	0.10571509350691366	0.11508151936194955	0.1252687644149453	0.13634607996338674	0.14838782817965632	0.16147353112229149	0.17568794896312487	0.19112100471418478	0.20786757500790945	0.22602697710519282	0.24570228340734407	0.26699912266100395	0.29002401695453955	0.31488201290823253	0.3416733743510657	0.37048917340608584	0.40140534210368345	0.4344748479162722	0.4697174400582305	0.5071067842815434	0.5465540304784994	0.5878877784585324	0.6308305134568349	0.6749720030194452	0.7197422503112698	0.7643883697922457	0.8079637551325539	0.8493424203209555	0.8872756942297917	0.9205095981207008	0.9479721531759987	0.9690131380577376	0.9836323838761123	0.9925837787351363	0.9972395127832288	0.9992019565761119	0.9998333655731774	0.9999771329141279	0.99999824839156	0.9999999332075038	0.9999999915330269	1	1	1	1	1	1	1	1	1	1	1	1	1	1	1	1	1	1	1	1	1	1	1	1	1	1	1	1	1	1";
"0.008526302796240462	0.009285316116446963	0.010111892543329474	0.011012044144308123	0.011992319725021053	0.013059846160813548	0.014222388881989453	0.015488400045405004	0.01686708380937226	0.018368461403672386	0.02000344332084135	0.02178390850253118	0.023722788334225402	0.025834160216470448	0.028133346010222906	0.030637024564007704	0.03336334143760636	0.036332049501996505	0.03956463394526113	0.04308446668835897	0.046916967066177435	0.05108977207954476	0.055632919116018066	0.0605790506153804	0.06596361010917297	0.07182507999682819	0.07820520769969048	0.08514924295758051	0.0927062003182853	0.10092911590651114	0.10987529461827177	0.11960656866025858	0.13018952427694247	0.14169573009411165	0.15420185669606343	0.1677898243822146	0.18254675212747762	0.19856486005375965	0.21594110502855995	0.23477663952283792	0.2551758581514966	0.277245047796681	0.3010904022735952	0.3268152673620362	0.3545163549909983	0.3842787041492118	0.4161688915938251	0.45022622502176624	0.486451298496277	0.5247916005623179	0.5651234675601448	0.6072303620157047	0.6507779485868689	0.695286931569778	0.7401053413065574	0.784393646584088	0.8271194119577648	0.8670905841730631	0.9030373330866929	0.9337611674569894	0.9583506700065172	0.9764272559643339	0.9883329469322562	0.9951363413087686	0.9983734396724249	0.9995903097681716	0.9999283812490121	0.9999921865081118	0.999999520129969	0.9999999833483757	1	1	1	1	1	1	1	1	1	1	1	1	1	1	1	1	1	1	1	1	1	1	1	1	1	1	1	1	1	1";
"0.00813880164631979	0.008863321834905211	0.009652334650732133	0.010511580278427057	0.01144730893595879	0.012466325737946007	0.013576042243114109	0.014784527993875364	0.016100569299468282	0.017533732778795802	0.019094434991261646	0.020794016749898538	0.022644824460279777	0.024660296978126595	0.026855067330968985	0.02924505819670271	0.03184759921388247	0.03468155378431172	0.037767439816167044	0.04112759278368315	0.044786269337559026	0.04876989819729264	0.05310717740018856	0.05782930162563141	0.06297016161376474	0.06856655437274727	0.07465841611501947	0.08128905375338281	0.08850539839357625	0.09635826325728192	0.10490258575928366	0.11419770515918827	0.12430758571675736	0.13530107083197784	0.14725198539932452	0.16023942982416134	0.17434766105110516	0.18966617100818417	0.20628937084700205	0.22431621889011433	0.2438494780365679	0.2649946130280943	0.2878581455265567	0.3125453779342681	0.33915717777979343	0.3677856600734171	0.39850845035005267	0.43138095451707686	0.4664264537052528	0.5036234182019794	0.5428894326717986	0.584061557407921	0.6268729558281689	0.670926598224736	0.7156680631593396	0.7603617630848032	0.8040786616196222	0.84570736757512	0.8840065985386122	0.9177161329859488	0.9457380027694892	0.9673733434361271	0.9825558724567482	0.9919723715902516	0.9969518412608163	0.9990959444056213	0.999804929641488	0.9999721123033599	0.9999976438105742	0.9999998842791241	0.9999999989001033	0.9999999992476244	1	1	1	1	1	1	1	1	1	1	1	1	1	1	1	1	1	1	1	1	1	1	1	1	1	1	1	1";
"0.007768913577037384	0.008460507974337507	0.009213665058399857	0.0100338634320916	0.010927069097510152	0.011899780300715502	0.012959070911773632	0.01411264401004449	0.015368887865613112	0.016736935781404182	0.018226731027639165	0.0198491020302687	0.021615833670615196	0.02353976168940279	0.025634848361759673	0.027916307033230028	0.03040068178519244	0.033105984755263454	0.03605181446437893	0.03925949296339814	0.0427522152064152	0.0465552059452105	0.05069589481091792	0.05520409403758576	0.06011219792809356	0.06545538822001584	0.07127186587895475	0.0776030645469918	0.08449391018358882	0.09199306332640879	0.1001531829097221	0.10903117990775099	0.11868845935786125	0.12919117496347154	0.14061042274149854	0.15302241453574353	0.16650859393252238	0.18115560207587855	0.19705521182381838	0.21430397899515063	0.23300267926034743	0.2532554901660407	0.2751685891020481	0.2988482775992502	0.3243982967603764	0.351916152787756	0.38148820430068875	0.41318302132190954	0.4470428372759497	0.4830723006551232	0.5212244082473585	0.5613828126924985	0.6033404271874035	0.6467746393341269	0.6912201807327717	0.7360427505425887	0.7804192539710748	0.8233343553663873	0.8636080190806947	0.899972383863374	0.9312144351595798	0.956386447972356	0.9750519617642217	0.9874836278933845	0.9946908840363247	0.9981844245894566	0.9995293929979906	0.9999146340032337	0.9999902316677933	0.999999369759636	0.9999999837923206	1	1	1	1	1	1	1	1	1	1	1	1	1	1	1	1	1	1	1	1	1	1	1	1	1	1	1	1	1";
"0.00741583884119516	0.008076003864522383	0.008794933985191405	0.009577859725841003	0.010430476344432029	0.011358985305828328	0.012370140811436567	0.013471296300298006	0.014670459526825748	0.015976348605273503	0.01739845713654037	0.018947121731629275	0.02063359521040717	0.022470129238005555	0.02447006048775239	0.026647907454073798	0.0290194724295378	0.03160195449799363	0.03441406780009283	0.037476178582904585	0.04081043986890386	0.04444095182032839	0.048393918045315926	0.05269782585638726	0.057383638946228215	0.062484990365327966	0.06803840815962954	0.07408353158518435	0.08066335235143107	0.0878244598126133	0.09561730567822013	0.10409644203564115	0.11332079947596006	0.12335390995775387	0.13426415293330626	0.14612493283049374	0.15901483055568888	0.17301765496634616	0.18822241048755942	0.20472309157205473	0.2226182578896262	0.24201037699992234	0.2630047201335559	0.28570780187534145	0.3102251499006795	0.33665818345411236	0.36510005330867124	0.395629964000125	0.4283057239492312	0.46315401272207474	0.5001579826344412	0.5392415084608949	0.5802498487077753	0.6229267302320173	0.6668880100967107	0.7115946622525341	0.7563283376914757	0.8001774684669878	0.8420459542456794	0.8807006035841791	0.9148764659982808	0.9434516052700815	0.9656805513790367	0.9814319102413902	0.9913245724609069	0.9966411699843427	0.9989785984662424	0.9997724084508121	0.9999660342516884	0.999996976651248	0.9999998564616769	0.9999999554863032	0.9999999959201183	1	1	1	1	1	1	1	1	1	1	1	1	1	1	1	1	1	1	1	1	1	1	1	1	1	1	1";
"0.007078814134439788	0.007708978143953315	0.008395237121481693	0.009142584053331225	0.009956454972193083	0.010842770849117686	0.011807978430907239	0.012859097989220768	0.014003773514378813	0.015250328017168663	0.01660782381712671	0.01808612961035851	0.01969598857095356	0.021449096476265195	0.02335818857706743	0.0254371244422586	0.02770099478180523	0.030166221042945456	0.03285067553495264	0.03577380904517663	0.03895677771369969	0.04242260408296273	0.046196319329142	0.050305146648376216	0.054778672229637476	0.05964904917283301	0.06495119764865669	0.07072303194074214	0.07700568559177788	0.0838437541358785	0.09128555343339069	0.09938336428361506	0.10819369901369676	0.11777754908274496	0.12820062846292551	0.1395335716218846	0.15185212769100936	0.16523725624561889	0.17977513286724425	0.19555707121018356	0.21267921203342385	0.23124198868639095	0.25134930677663386	0.27310723412435484	0.29662215578087336	0.3219981856432032	0.3493335176732718	0.37871596037984473	0.4102158296113081	0.4438782266589135	0.47971175949431066	0.5176747955628881	0.5576581180905533	0.5994638467058317	0.6427809700675615	0.6871582964886359	0.7319778723574393	0.7764342011407325	0.8195288711344644	0.8600944466978877	0.8968662320798055	0.928618397075485	0.954369056917198	0.973625528735075	0.9865915977928762	0.9942151822797051	0.997978209723605	0.9994611523971285	0.9998986728777516	0.9999878593122854	0.9999991917420855	1	1	1	1	1	1	1	1	1	1	1	1	1	1	1	1	1	1	1	1	1	1	1	1	1	1	1	1	1";
"0.006757109540316882	0.007358635706678586	0.008013708432762163	0.008727093279164565	0.009503979917782256	0.010350020398061455	0.011271368193498504	0.012274725282317546	0.013367388215901417	0.01455730286173168	0.01585312132096585	0.01726426359047327	0.018800986699428247	0.020474456285347564	0.022296831049941058	0.0242813440220317	0.026442404708505392	0.028795691166001464	0.031358271570416374	0.0341487189819304	0.03718724325249155	0.04049582813113475	0.044098392586758774	0.04802093679313788	0.05229173887685296	0.05694152811603615	0.062003684636670206	0.06751446646800034	0.0735132181187217	0.08004261937897796	0.08714892293422508	0.09488223945876328	0.1032966737480719	0.11245081258323854	0.12240773941594231	0.13323538423433878	0.14500668815309967	0.15779976431869744	0.17169793687549353	0.18678975316447902	0.2031687573647243	0.22093313532697756	0.24018502276800635	0.26102950163331423	0.2835730469649656	0.3079213968610894	0.3341765069470372	0.36243247215155294	0.39277005805203924	0.42524937293528514	0.4599003952625137	0.4967108240152086	0.5356106690363862	0.576453246981441	0.6189924931408411	0.6628570452187846	0.7075230340284505	0.7522891837484645	0.7962615522843333	0.838359535381043	0.8773589936727488	0.9119916992709001	0.9411136612775052	0.963934826580543	0.9802599646129853	0.9906394117774309	0.9963064392646004	0.9988490774664961	0.9997353696083727	0.9999588903347683	0.9999961579414611	0.9999997995916657	0.9999999744398237	0.9999999966695611	1	1	1	1	1	1	1	1	1	1	1	1	1	1	1	1	1	1	1	1	1	1	1	1	1	1";
"0.006450029507725759	0.007024219942018197	0.007649523942284353	0.008330490771686334	0.009072073705699265	0.009879668907954596	0.010759149660327151	0.011716914370543115	0.012759928777253146	0.013895777388851133	0.015132720276671176	0.016479750091482073	0.017946658078802045	0.01954410506900621	0.02128369905132327	0.02317807567896649	0.02524098815814481	0.027487411881500896	0.029933641961202465	0.03259741625241517	0.03549803488618804	0.03865649206825954	0.042095637454019494	0.04584031189604116	0.04991753057958896	0.05435665943401795	0.059189609973050984	0.06445104240724543	0.07017858627985372	0.07641308078857881	0.08319878621397571	0.0905836794435871	0.09861966785579702	0.10736286731807008	0.11687385586566885	0.12721791431126495	0.1384651955150643	0.1506910144431553	0.16397583467382146	0.17840537149472155	0.19407047097755892	0.21106686127321092	0.22949461404771052	0.24945736537718874	0.2710610528723001	0.29441212935717376	0.31961505127437984	0.3467687762719174	0.37596213283012747	0.4072675045394403	0.440732646157733	0.47636999909889494	0.5141431584946042	0.5539498586564616	0.5956012330065631	0.6387976480782366	0.6831017582474315	0.7279117446781818	0.77243970628813	0.8157042350394639	0.8565512242078906	0.8937201111350646	0.9259740014150404	0.952298904018272	0.9721476220066164	0.9856558534696203	0.9937081060451921	0.997753753912937	0.9993846576363898	0.9998801765265255	0.9999850012425081	0.9999989561978244	1	1	1	1	1	1	1	1	1	1	1	1	1	1	1	1	1	1	1	1	1	1	1	1	1	1	1	1";
"0.006156909239664236	0.006705006765992674	0.0073018949549509115	0.007951916939912828	0.008659801274150794	0.009430698282342923	0.010270215464047267	0.01118445951664286	0.012180080907258431	0.013264319914649962	0.014445061791362557	0.015730890764722175	0.017131154860892076	0.01865603388291645	0.020316604013934876	0.022124933074515272	0.024094153307903765	0.026238560903279563	0.028573716951935696	0.031116556355490266	0.033885514362514045	0.03690064126013055	0.040183757164126414	0.04375859502780298	0.047650965899063404	0.05188892690181324	0.05650297925807439	0.061526255133184334	0.06699474122840406	0.07294749089814954	0.07942687423947745	0.08647880743900153	0.09415301698151116	0.10250330234978523	0.11158778179112665	0.12146910024661803	0.13221477848231905	0.14389728921499687	0.15659425890562007	0.17038855669217992	0.18536824567290205	0.20162643635724817	0.21926091441202558	0.2383734934149647	0.25906904338462844	0.28145399713366054	0.3056342629560272	0.331712296991038	0.35978312767681236	0.3899289526419503	0.4222121614458765	0.4566659142415311	0.4932823400982896	0.5319974096088791	0.5726722899266825	0.6150709604108487	0.6588345792333853	0.7034542180436432	0.7482455300580739	0.7923322212366215	0.8346495482245783	0.8739832113230268	0.9090630565744596	0.9387249935869902	0.9621364263062044	0.9790395675597001	0.9899159312295033	0.9959465419918162	0.9987065202829827	0.9996933628541848	0.9999504452771886	0.999995124940637	0.9999997456317845	1	1	1	1	1	1	1	1	1	1	1	1	1	1	1	1	1	1	1	1	1	1	1	1	1	1	1";
"0.00587711548465619	0.006400306054674228	0.006970070403250267	0.007590553846035034	0.00826627113349948	0.009002137812624501	0.009803507931677521	0.010676209395922646	0.011626591585276262	0.012661566816403489	0.013788660525609146	0.01501606940888713	0.01635271699994509	0.017808320572486984	0.01939345754870785	0.0211196472521363	0.022999427764582747	0.025046446935287566	0.02727556582590566	0.02970295566196334	0.03234621486901269	0.035224501632356235	0.03835864754929079	0.04177132700937239	0.04548719610451508	0.04953306094480852	0.053938071376796834	0.058733896493615545	0.06395493892702944	0.0696385500470667	0.0758252650235396	0.08255903028324453	0.08988747059484369	0.09786212205318626	0.10653871631166947	0.11597740968094171	0.12624305095580238	0.13740534403526208	0.14953912335514422	0.16272439063074434	0.17704639601759742	0.19259548379589267	0.20946700693508602	0.2277606476361651	0.24757976872571502	0.26903016860781687	0.292218340260226	0.31724904794652475	0.3442219399010314	0.3732269585003961	0.4043383299197384	0.437606437636092	0.4730474025550076	0.5106299867929891	0.5502586288386881	0.591753321177506	0.6348255418878137	0.6790515902909599	0.7238455944205605	0.7684371198134503	0.811862039410945	0.8529798863089143	0.8905354713213269	0.9232824082106018	0.9501766456386722	0.9706186920716022	0.9846758618164584	0.993168683427551	0.9975100513683697	0.9992994692573247	0.9998588009611681	0.9999815103512442	0.9999986202765359	0.9999999710006151	1	1	1	1	1	1	1	1	1	1	1	1	1	1	1	1	1	1	1	1	1	1	1	1	1	1";
"0.005610042171617575	0.006109458352777108	0.006653331697153371	0.007245619625186346	0.00789063224627203	0.008593061319299601	0.00935801678692735	0.010191065016403197	0.01109826425253856	0.012086213199881258	0.013162097657050892	0.01433374100859841	0.015609662475835201	0.016999138566214066	0.018512267134297832	0.02016004609762116	0.02195444528872325	0.023908497893388822	0.02603638975871226	0.028353563179834448	0.030876825607833742	0.03362446588699225	0.03661638655184179	0.039874242060272215	0.04342158266742106	0.04728402362322395	0.05148940979280293	0.056068017334516655	0.06105272904105106	0.06647926055920673	0.07238638529362948	0.07881614968877927	0.08581414573594762	0.09342974634079414	0.10171636906512603	0.11073172745038887	0.12053804548491213	0.13120239618831794	0.142796792192613	0.15539839496981447	0.16908959388172748	0.18395797610017617	0.20009622468571261	0.2176017082458912	0.23657591635820271	0.25712349593174416	0.2793508121997463	0.3033639343168948	0.3292657754034939	0.35715222195075896	0.38710695162885184	0.41919445635060343	0.4534510056037167	0.4898730350801054	0.528402327556239	0.5689077137824262	0.6111628728936224	0.6548216310409443	0.6993893695350551	0.7441987141963163	0.7883910075311609	0.8309176100307986	0.8705748487714976	0.906091958605636	0.9362866287407412	0.9602857946397505	0.9777706877946853	0.9891533732656673	0.9955604792561599	0.9985500753822899	0.9996458754375331	0.9999405481419839	0.9999938697626947	0.9999996745909701	1	1	1	1	1	1	1	1	1	1	1	1	1	1	1	1	1	1	1	1	1	1	1	1	1	1";
"0.005355111968818115	0.005831834205497774	0.006350994023257073	0.0069163686452384295	0.007532071822458732	0.008202583300613504	0.008932780856227354	0.009727976702003184	0.010593955489079642	0.011537017092830084	0.012564017990859232	0.013682429668233437	0.014900385143105661	0.016226736346372537	0.017671127961999537	0.019244057083628235	0.020956952557961858	0.022822257182592665	0.02485351532109542	0.027065472353811404	0.029474176267990055	0.03209709333496855	0.0349532297328942	0.03806326432558723	0.041449696525231707	0.04513699484739646	0.049151765994033654	0.05352293804430817	0.05828194105448352	0.06346292475174775	0.0691029616743068	0.07524228941933042	0.081924535844455	0.0891969775202419	0.09711078734017257	0.10572130754715617	0.11508828341394707	0.125276127176544	0.13635409147232733	0.14839654849072662	0.16148301728302622	0.1756982693760414	0.19113222983915448	0.2078797767985742	0.22604024390925925	0.24571669704142649	0.2670147746640988	0.2900410043476102	0.31490043594674594	0.3416933350839312	0.37051077856816494	0.40142868854769004	0.4345000384352797	0.4697445561185678	0.5071359015726276	0.5465851732307486	0.5879209577105105	0.6308656610072403	0.6750089662815291	0.7197807549609337	0.7644279932129793	0.8080038683060252	0.8493821596418722	0.8873139250733466	0.9205449650538067	0.9480031795114927	0.9690384787197279	0.9836511605880811	0.9925959875226212	0.9972461861746253	0.999204856988101	0.9998342948397203	0.999977346740888	0.9999982901751939	0.9999999488582401	1	1	1	1	1	1	1	1	1	1	1	1	1	1	1	1	1	1	1	1	1	1	1	1	1";
"0.005111773257733019	0.0055668334713822884	0.006062403058398664	0.006602087677702925	0.0071898144386695435	0.007829858676805307	0.008526878524713974	0.009285943100737338	0.010112575348344224	0.01101278766184542	0.011993129530310115	0.013060728107818848	0.014223349300651698	0.01548944585812756	0.016868222603704137	0.018369701541525618	0.02000479406209397	0.02178537953805735	0.02372439075229046	0.025835904645751386	0.028135245670409093	0.030639092861528973	0.03336559433059727	0.036334502729625566	0.0395673058949017	0.043087376672753024	0.04692013517375146	0.05109322096130899	0.05563667560887862	0.06058314107752818	0.06596806331275575	0.07182992950328869	0.07821048812346579	0.08515499209290646	0.09271246032914836	0.10093593123121751	0.10988271285902239	0.11961464235240203	0.13019831375390856	0.14170529506420587	0.1542122639059517	0.1678011469682046	0.18255906703759955	0.198578252706217	0.21595566438825822	0.234792459501793	0.2551930434048378	0.27726370721777194	0.301110649119983	0.32683721219876677	0.35454012239916255	0.384304411672571	0.41619665394397176	0.4502561510370145	0.48648347926460794	0.5248260993303386	0.5651603097604384	0.6072695129727333	0.6508192866029846	0.69533023562081	0.7401502090683898	0.7844395100115141	0.827165419769075	0.8671356004266311	0.9030799376287697	0.9337997161258494	0.9583834752444742	0.9764529598339946	0.9883509593150382	0.9951471944094621	0.9983787902058462	0.9995923093488887	0.9999288924156845	0.9999922269999398	0.9999994907233183	0.999999946869622	1	1	1	1	1	1	1	1	1	1	1	1	1	1	1	1	1	1	1	1	1	1	1	1";
"0.004879500413108391	0.00531388380317986	0.005786935958307997	0.006302098947982132	0.006863120999380492	0.007474084097084802	0.008139433894137743	0.008864010433112291	0.009653084466897784	0.010512396958248618	0.011448198274087822	0.01246729419812516	0.013577096971744857	0.014785676560430507	0.01610182027624886	0.01753509500423164	0.019095918173799117	0.02079563224381542	0.022646583847899377	0.024662212842037023	0.026857153697670846	0.029247329113705183	0.03185007320836433	0.03468424822087981	0.037770374671841536	0.041130787601591674	0.04478974930042732	0.04877368712833922	0.05311130413562299	0.05783379455917495	0.0629750534225956	0.06857188061533147	0.07466421481937624	0.08129537285976615	0.0885122722550491	0.0963657475385936	0.10491073240752985	0.1142065735197594	0.1243172415173848	0.13531157765040974	0.14726341912871777	0.16025186816585926	0.17436119820964968	0.18968089231616395	0.2063053774194285	0.2243336168274209	0.2438683821572125	0.265015140192778	0.2878804268800529	0.31256954457802466	0.3391833618910859	0.36781400898277733	0.3985390862049633	0.43141401232218846	0.4664620534430485	0.5036616465426365	0.5429303487448993	0.5841051605897342	0.6269191716767927	0.6709752327684216	0.7157187819321706	0.7604140173363557	0.8041316488358109	0.8457599730079056	0.8840573725332472	0.9177632959165212	0.9457796004075059	0.9674075576859659	0.9825814747218931	0.991989238508386	0.9969612130476261	0.9991001016205538	0.9998063021495343	0.9999723880853287	0.9999976894906707	0.9999998981988264	1	1	1	1	1	1	1	1	1	1	1	1	1	1	1	1	1	1	1	1	1	1	1	1";
"0.004657790629583192	0.005072437250600398	0.005523995539995275	0.006015751777993767	0.0065512836519817635	0.0071344879029987054	0.007769607446146547	0.008461263612187955	0.009214487992957633	0.010034759547150964	0.010928045115978204	0.011900842978017731	0.01296022831891628	0.014113904516020483	0.015370260375431176	0.01673843065139402	0.018228359151958796	0.019850874572574378	0.021617764399395528	0.023541863928004364	0.02563713821000055	0.027918800252129457	0.030403396884408757	0.03310894174236533	0.03605503494860401	0.03926299919384621	0.04275603325251351	0.04655936444905547	0.05070042290868183	0.05520902508836349	0.06011756651742546	0.06546123399295216	0.07127823119866156	0.07760999541801013	0.08450145442130007	0.09200127888648635	0.10016212722541519	0.10904091544555645	0.11869905770701643	0.12920271033984446	0.14062297528552328	0.15303607501507419	0.16652345156956544	0.1811717671533062	0.19707279036526348	0.21432308989965504	0.23302345036469752	0.25327805303255535	0.275193086238085	0.2988748571240326	0.32442711741638497	0.3519473652568643	0.38152196831528096	0.4132194954392885	0.44708215648799143	0.48311458774894334	0.5212697562786788	0.5614312554822829	0.6033919396450654	0.6468290705648494	0.6912772408025184	0.7361019518737724	0.7804798398706925	0.8233952506537724	0.8636677641006189	0.9000291344932472	0.931266018908258	0.9564306400123557	0.975086902149143	0.9875084128867788	0.9947060932999923	0.9981921101597311	0.9995323925939945	0.9999154782243722	0.9999903766007491	0.9999993929154466	0.9999999900247144	1	1	1	1	1	1	1	1	1	1	1	1	1	1	1	1	1	1	1	1	1	1	1";
"0.009578843392304547	0.010350989349368933	0.011185372381743408	0.012087007631344111	0.013061313511433513	0.014114145388547713	0.015251829635436098	0.01648120068961735	0.01780964237725646	0.019245134453038656	0.020796295150898602	0.022472437154884808	0.02428361723732206	0.02624070209580525	0.02835542664507287	0.03064046655954193	0.03310950665070862	0.035777331202304315	0.03865989478282825	0.0417744273083123	0.045139520927629566	0.04877524256206765	0.052703238421108495	0.05694685820145748	0.06153127579330468	0.06648362952047994	0.07183315031862793	0.07761131898712503	0.08385200943881911	0.09059165173730345	0.09786938501835335	0.10572722546387203	0.11421021549403616	0.12336657529331937	0.13324785237212838	0.14390902405341133	0.15540860324925235	0.1678086646076834	0.18117485786664275	0.19557630623944458	0.21108541140580042	0.22777752300296275	0.24573041988086033	0.26502356464849147	0.2857370373460813	0.3079500951163523	0.3317392107561094	0.35717552265770874	0.3843214852868599	0.4132264648749979	0.4439212828467376	0.47641113192071666	0.5106669762164076	0.546614835433192	0.5841230576317868	0.6229875205430584	0.6629151498665027	0.7035069435258459	0.7442425131544291	0.7844699733015058	0.8234068908637601	0.8601605088785806	0.8937767241512667	0.9233266295018627	0.9480327189760293	0.9674216040532856	0.9814668298906974	0.9906615947297991	0.9959583385335734	0.9985549364456692	0.9995937462128223	0.9999156567722981	0.9999880575934057	0.9999989825111094	0.9999999824154987	1	1	1	1	1	1	1	1	1	1	1	1	1	1	1	1	1	1	1	1	1	1	1	1	1";
"0.009143662864740354	0.009880731480302211	0.010677210367225912	0.011537888361660947	0.012467935123198494	0.01347294296747963	0.014558950075001055	0.015732481900730858	0.01700058813860969	0.018370884024435496	0.019851601167830153	0.021451627651573206	0.023180568268025666	0.02504879491330163	0.027067516232515895	0.029248832929131295	0.0316058171701254	0.03415258322233931	0.03690437315468644	0.039877641093634814	0.043090149567402015	0.0465610686554521	0.05031108245890488	0.05436250588051069	0.05873940310443875	0.06346771718954819	0.0685754061350345	0.07409258649671648	0.08005167397027353	0.08648755272279982	0.09343771129095232	0.10094242680839079	0.10904490463202356	0.11779144256782577	0.12723159313666807	0.13741822070632514	0.1484077497638696	0.1602601028247203	0.1730387862174239	0.1868108676133511	0.20164680606330507	0.21762023100434158	0.2348075434420561	0.2532872997833727	0.2731393599614961	0.2944436687293762	0.3172786407703715	0.34171897478141355	0.3678327664468121	0.3956778319864417	0.42529686931800004	0.4567113475097362	0.48991393048971277	0.5248589868109091	0.5614511122859567	0.5995315390545424	0.6388625698290229	0.679110774308501	0.7198302218462242	0.7604485933051366	0.8002607940682299	0.838436389691687	0.874050160212808	0.9061453706773283	0.9338364753692067	0.9564487263818892	0.9736728346669589	0.985687878947692	0.9931871836955751	0.9972546777609113	0.9991028107641572	0.9997747779526691	0.9999594519181585	0.9999951781320499	0.9999996228695333	0.9999999624957138	1	1	1	1	1	1	1	1	1	1	1	1	1	1	1	1	1	1	1	1	1	1	1	1";
"0.008728277313107692	0.00943186445285717	0.010192163324812042	0.011013744438795768	0.011901546537504634	0.012860905031918382	0.013897584516297138	0.015017815373570031	0.01622832714741786	0.01753639139658446	0.018949864485884805	0.020477234210734382	0.022127669038149573	0.023911074369700462	0.025838149216698098	0.027920450644221377	0.03017045983633791	0.03260165638067993	0.03522859654420226	0.038066995627669666	0.041133828745603986	0.04444738470615256	0.04802745249128765	0.0518953435449211	0.05607405985959869	0.06058840344832233	0.0654651035406068	0.0707329690573069	0.07642301691152759	0.08256863207682352	0.0892057217411103	0.0963728712812815	0.10411150755312486	0.11246606444942499	0.12148411769429128	0.13121653060373997	0.14171760022142862	0.15304511640605234	0.16526045654323945	0.17842855506976182	0.19261785381517083	0.2079001288435518	0.22435017237152316	0.2420453346900369	0.2610648176673817	0.28148867990610066	0.30339648748498216	0.3268654512456249	0.35196802486700324	0.378768707052139	0.4073198814441183	0.4376565965899826	0.469789774401347	0.5036980267815999	0.5393172894484891	0.5765285444662438	0.6151434080888537	0.654887922021032	0.6953859596895419	0.7361411337809314	0.7765293740723237	0.8157929657224079	0.8530582798112066	0.8873776508263249	0.9178081466639465	0.9435301715041784	0.9639970717239805	0.9790841060264455	0.9891810016211257	0.9951612177432886	0.9981971494631076	0.9994662901792469	0.9998816952939616	0.9999817891580619	0.999998279400516	0.9999998612154559	0.9999999229917447	1	1	1	1	1	1	1	1	1	1	1	1	1	1	1	1	1	1	1	1	1	1	1";
"0.00833179046348587	0.009003418053801213	0.0097291826580306	0.010513446882549847	0.011360924293357803	0.012276709091277899	0.013266304436568904	0.014335657786534818	0.015491193591678264	0.01673985441217957	0.018089140454014743	0.01954715416355517	0.02112265074318624	0.02282508652380114	0.024664676197558952	0.02665245623113979	0.02880034502999441	0.031121211912214685	0.033628962855340845	0.036338602352946524	0.03926633883865438	0.042429665648096596	0.04584746408862652	0.049540106005355654	0.05352957398457854	0.05783957116178887	0.06249565790819757	0.0675253763896922	0.07295840338344912	0.07882668680555953	0.08516459863497614	0.09200910443448089	0.09939990666870002	0.10737961448087102	0.11599390420644107	0.12529165370718956	0.13532508712517133	0.14614986721649523	0.15782525255142185	0.17041402789751015	0.18398255303766317	0.19860063185163077	0.21434129574674002	0.23128041131293242	0.24949619096924727	0.2690683156221033	0.2900768256516651	0.3126006156353691	0.336715306663516	0.3624906025283575	0.38998672277376367	0.4192498195527913	0.4503061585813927	0.48315486754623865	0.517758795115675	0.554033504315941	0.5918340281759429	0.6309397770542932	0.67103776362121	0.7117057256975609	0.7523974083349815	0.7924340581118996	0.8310086466943556	0.8672108564175258	0.9000831727498486	0.9287155715425068	0.9523786912104619	0.9706785366613226	0.9836906834268454	0.992010894760338	0.9966630651793934	0.9988592794169948	0.9996970321663002	0.9999414812669923	0.9999924522334623	0.9999994164672925	1	1	1	1	1	1	1	1	1	1	1	1	1	1	1	1	1	1	1	1	1	1	1	1";
"0.007953343117272442	0.00859446596232632	0.009287267057602749	0.010035911584558336	0.010844898260174802	0.011719090915438253	0.012663744142423035	0.013684533071890248	0.014787592896222088	0.01597955084919019	0.0172675674331589	0.018659379779755503	0.020163341401479077	0.02178848543512028	0.023544566382454137	0.02544211522410349	0.02749251751003782	0.029708063338812422	0.03210202679846131	0.03468874368251606	0.037483690190861195	0.04050357803345334	0.043766443444199755	0.047291751540733756	0.05110050547601736	0.055215363041311694	0.059660753571547355	0.06446301372487992	0.0696505247507805	0.07525385413348414	0.08130590714643618	0.08784206083227737	0.0949003932505373	0.1025216826075143	0.11074982249921382	0.11963168968188015	0.12921753688016643	0.139560939969659	0.15071899298962815	0.16275235572930102	0.17572525601151748	0.1897054512122554	0.20476407280342637	0.22097534598220858	0.2384161577924653	0.2571654168686605	0.2773031072868616	0.29890902494109634	0.32206102756696203	0.34683277153231495	0.3732905993548901	0.40148973570049284	0.4314691727667661	0.4632452533504003	0.4968037986200886	0.5320901676877076	0.5689974140702506	0.6073521790298719	0.646899033772975	0.6872831553086381	0.7280341573820913	0.7685532108187085	0.8081087367614291	0.845847730447503	0.8808321750140494	0.9121097895890927	0.9388249254816642	0.960363755357328	0.9765072715197943	0.9875402250292136	0.9942502884629146	0.9977720879395017	0.9993071174497224	0.9998366568295708	0.9999728715590344	0.9999971103866917	0.9999998073368614	1	1	1	1	1	1	1	1	1	1	1	1	1	1	1	1	1	1	1	1	1	1	1";
"0.0075921188265784785	0.008204124839454237	0.008865462622006803	0.009580107284424697	0.010352355139285521	0.011186848282450106	0.012088602432217335	0.013063037022193056	0.014116007575901441	0.015253842000963865	0.01648337537609327	0.017811992077279536	0.019247673705123255	0.020799039042096408	0.02247540217222711	0.024286821042334605	0.026244164489880692	0.028359168076797166	0.030644509069365843	0.033113875425139015	0.03578205199049338	0.0386649955048138	0.04177993904577506	0.045145477151002894	0.04878167749596576	0.05271019192077127	0.05695437192214783	0.06153939555169205	0.06649240270676071	0.07184262754987143	0.07762155824586238	0.08386307195675374	0.09060360378922096	0.09788229587377272	0.10574117293657095	0.11422527969034914	0.123382848358039	0.1332654276378638	0.14392800583884313	0.15542909582361325	0.1678307913453109	0.1811987415353909	0.1956020804233994	0.21111322399386342	0.2278075224655485	0.24576277199059754	0.2650584354729068	0.2857746025988407	0.3079905389973163	0.331782729206263	0.3572223054566687	0.3843717254169236	0.413280344702088	0.4439789796878423	0.476472803153651	0.5107327330749575	0.5466847447236397	0.5841971158986587	0.6230656182926807	0.6629970401262819	0.7035921879468301	0.7443304338658772	0.7845595878993336	0.8234968417926124	0.8602490124902159	0.8938615601119764	0.9234052047086216	0.9481022835680747	0.9674796236663701	0.9815115853031513	0.9906927549604945	0.995977302507469	0.9985646292647706	0.999597699181436	0.9999168491981011	0.9999883023609651	0.9999989908381686	0.9999999573500724	1	1	1	1	1	1	1	1	1	1	1	1	1	1	1	1	1	1	1	1	1	1";
"0.0072473373375113925	0.00783155121655488	0.008462857757982185	0.009145050823877364	0.009882231320735912	0.010678831136865735	0.011539639776006373	0.012469827806392834	0.01347498824285026	0.014561160115207715	0.015734869962044103	0.017003168523480515	0.01837367257092201	0.01985461469320343	0.021454883697435458	0.02318408715520543	0.025052597535779066	0.027071624987606457	0.02925327292520664	0.03161061509802359	0.03415776762719337	0.03690997495411142	0.03988369431596536	0.04309669157738738	0.046568136004062344	0.05031871932666816	0.0543707568059266	0.058748318682853795	0.06347735005412676	0.06858581489942842	0.07410383166699382	0.08006382601154219	0.08650067977619166	0.09345189313886802	0.10095774829319214	0.10906145437153866	0.11780932031240435	0.12725090025976984	0.13743907389640547	0.14843027009615897	0.160284414615227	0.17306503437111068	0.18683919603798724	0.2016773772370155	0.2176532091397906	0.2348431174288026	0.2533256524107085	0.2731806918820855	0.2944881884434553	0.3173265634310269	0.3417705191744119	0.36788815291281945	0.39573728247894896	0.42536059219886857	0.45677954059946074	0.48998674795845487	0.5249365481991946	0.561533463383461	0.5996186281591498	0.6389542168177125	0.6792066119194207	0.7199296366238931	0.7605507044676445	0.8003642756046319	0.8385395045671403	0.8741506512938283	0.9062404925371254	0.9339231454339538	0.9565238122608148	0.97373370791997	0.9857331280859288	0.9932171997445535	0.9972718630690794	0.9991109551428838	0.9997778336831405	0.9999603248938439	0.9999954163991683	0.9999997219728977	1	1	1	1	1	1	1	1	1	1	1	1	1	1	1	1	1	1	1	1	1	1";
"0.006918252873529237	0.0074759400847103676	0.008078581387861826	0.008729799378707102	0.009433509242457307	0.01019394059370873	0.011015665097724643	0.01190362202493063	0.012863147528184248	0.013900008061345073	0.015020434242685104	0.016231157019609695	0.017539449183608523	0.018953168862063694	0.020480805228501063	0.022131527241600984	0.023915244023095594	0.02584265493131202	0.02792531926554629	0.030175720549318184	0.0326073409485564	0.03523474028623654	0.038073633588512824	0.04114100192483029	0.04445513567135591	0.048035826953564946	0.05190439304239048	0.056083837904434636	0.06059897038391195	0.06547652033990137	0.07074530336093006	0.0764363443791125	0.08258302611839338	0.08922127370753581	0.0963896748784461	0.10412966052911718	0.11248567339564301	0.12150529641102811	0.13123940544988846	0.1417423025483363	0.153071790514631	0.1652892564478745	0.17845964374732445	0.19265140669334382	0.20793633336922798	0.22438922734479716	0.24208745216220107	0.2611102188408615	0.2815375986291699	0.30344916205283984	0.32692213629609546	0.35202897220660856	0.3788341730238472	0.40739011502952216	0.43773182695648655	0.46987022012654284	0.5037838514505703	0.5394085863835412	0.5766253384225982	0.6152455814737259	0.6549951840512339	0.6954977946811858	0.7362567202341285	0.7766474899608696	0.8159119287105921	0.8531758486790972	0.8874909955825346	0.9179139243075947	0.9436247658111869	0.9640770216339376	0.9791468574025138	0.9892256896111215	0.9951892357333701	0.9982120452271435	0.9994726880106073	0.999883769613872	0.9999822542990624	0.9999983456294286	0.9999998640232702	0.999999922064716	1	1	1	1	1	1	1	1	1	1	1	1	1	1	1	1	1	1	1	1";
"0.006604156038145947	0.007136524886537696	0.007711806808740737	0.008333460383670277	0.009005222597691114	0.009731132697623091	0.01051555398843805	0.011363201420712236	0.01227916975833759	0.013268963451303037	0.014338531186942706	0.015494298475987612	0.016743209568954306	0.0180927659509287	0.019551072202784032	0.021126884404836076	0.022829661427626362	0.024669619712428627	0.0266577991575403	0.028806117241485223	0.031127449370526153	0.0336357028420999	0.036345885605736095	0.03927420974514211	0.042438169878364934	0.0458566530710529	0.04955003488533582	0.053540303159600344	0.05785116341735549	0.06250818302588246	0.06753891042674032	0.07297302611536277	0.07884248550535611	0.0851816682762452	0.09202754399571653	0.09941982612179935	0.10740113241516704	0.1160171443419328	0.12531675874508347	0.13535220031016196	0.1461791470112749	0.1578568662880631	0.1704481585540215	0.1840193944310866	0.1986403901260168	0.21438419102296902	0.2313266780673515	0.24954608131353728	0.2691220860583053	0.2901347493478066	0.31266296929017967	0.33678238799047683	0.3625627001462416	0.39006412786570166	0.41933281560337893	0.4503950070079613	0.48324978006398484	0.5178599443764188	0.5541409735572206	0.5919477811691827	0.6310596116605017	0.6711632467562955	0.7118361298301572	0.7525316182298704	0.7925704741833538	0.8311450748382254	0.8673444553761391	0.9002104510200947	0.9288324961029569	0.9524811007808909	0.9707627575327725	0.983754454088859	0.9920542208895035	0.9966886109496494	0.9988718193301316	0.9997018840322495	0.999942856745861	0.9999927104224307	0.9999994460193052	1	1	1	1	1	1	1	1	1	1	1	1	1	1	1	1	1	1	1	1	1";
"0.006304367658190966	0.006812570786302405	0.007361739318970014	0.007955175247091805	0.00859644578901489	0.009289406435983479	0.010038223478184574	0.010847396473018845	0.011721790482928733	0.01266666146529692	0.013687685130828152	0.014790999395416568	0.015983232016004066	0.01727154501990008	0.018663678111153516	0.020167986260322707	0.021793504705225238	0.023549990085368292	0.0254479762877883	0.027498850598180476	0.02971490678866057	0.03210942198696544	0.034696734846338596	0.03749232447770962	0.04051290784348581	0.04377652495761082	0.0473026451720081	0.05111227616110289	0.05522808169285493	0.05967449590705223	0.06447786258819746	0.06966656921452848	0.07527119058975834	0.08132463462577522	0.08786229466263203	0.09492225234687626	0.10254529665078359	0.1107753307436645	0.11965924150155616	0.12924729536263985	0.13959307633691517	0.15075369450298434	0.162789823704733	0.1757657026075919	0.18974910895528335	0.20481118162371592	0.2210261652193954	0.23847096578213434	0.2572245038046409	0.27736677759295264	0.29897759502065197	0.3221348274992874	0.3469121254932873	0.37337586235304826	0.40158123577448807	0.43156721609526133	0.4633501277458117	0.49691573337984396	0.5322093238012318	0.5691238323994424	0.6074857524320671	0.6470394335186835	0.6874297577973414	0.7281859603501206	0.7687087392918884	0.8082658581722768	0.8460036579258778	0.8809833234148485	0.9122518596271157	0.9389531631724778	0.9604734946812126	0.9765947998562422	0.9876038922993277	0.9942913150398941	0.9977946782178608	0.9993172512835586	0.9998401341118403	0.9999736988301334	0.999997206537455	0.9999997858761974	0.9999999599204147	1	1	1	1	1	1	1	1	1	1	1	1	1	1	1	1	1	1	1";
"0.006018241273465732	0.00650338036178805	0.007027625329989904	0.00759412905805003	0.008206297048348335	0.008867809926317067	0.009582643940825893	0.010355096220678912	0.01118981022313131	0.01209180320261462	0.01306649582884432	0.014119745138824098	0.01525788103400225	0.01648773922739983	0.017816708384521946	0.019252770177867903	0.02080454642323565	0.022481353095610595	0.024293251803402652	0.026251113393753942	0.028366677059752553	0.030652623347006816	0.03312264332978555	0.035791526174510646	0.03867523323789434	0.041791001096426514	0.045157430134874894	0.04879459408411045	0.052724148002381364	0.05696945168194189	0.06155568874048141	0.06651000582057348	0.07186164952479077	0.07764211059854025	0.08388527558901808	0.09062759058546749	0.09790820943155198	0.10576916668524224	0.11425551791286725	0.12341550758816056	0.13330070199666116	0.14396609690966194	0.1554702278323892	0.1678751982008534	0.181246675970275	0.19565381567602091	0.21116904240536252	0.22786773477373182	0.24582769601607565	0.26512842775988044	0.2858499957919336	0.3080717164596087	0.33187007042807065	0.35731619780937784	0.3844725515235085	0.4133884860665802	0.44409478320556106	0.47659657027578295	0.5108647025534513	0.546825051523173	0.5843457429418157	0.6232223536931593	0.6631613751912704	0.7037632562761569	0.7445068695170032	0.784739411120746	0.8236773259499496	0.8604265719541088	0.8940317331011338	0.9235627961048569	0.9482417557662146	0.9675959185213633	0.9816012417039454	0.9907551121513442	0.996015215899148	0.9985839776485199	0.9996055605196844	0.9999192241674426	0.9999887733605338	0.9999990266966844	0.9999999333840867	1	1	1	1	1	1	1	1	1	1	1	1	1	1	1	1	1	1	1";
"0.005745159383566563	0.006208285213664632	0.006708743564550843	0.007249542559619453	0.007833934264835968	0.008465432851371923	0.009147833529543594	0.009885238211983876	0.010682080312593677	0.011543151047103047	0.012473622170686649	0.013479088295876409	0.014565590696772848	0.015739657719202337	0.017008342009996392	0.01837926326272835	0.019860656050076166	0.021461411903345627	0.023191141896040116	0.025060220341870228	0.027079862561630495	0.02926217427160617	0.03162023289057587	0.03416816096727068	0.03692120609437944	0.03989583012437809	0.04310980382516504	0.04658230553375998	0.05033403021360532	0.05438730145974156	0.058766194360085525	0.06349666443746314	0.06860668272065824	0.07412637873602278	0.08008818353975415	0.08652699783007022	0.09348032504071722	0.10098846204135269	0.109094633304575	0.11784515768348999	0.12728960784419152	0.13748087651768118	0.1484754118017766	0.16033315701314974	0.17311765676219257	0.18689599242559674	0.20173866647637095	0.21771933487583217	0.23491443398658177	0.253402544651154	0.2732635541641141	0.29457743942036596	0.3174226376145852	0.3418738508986539	0.367999193205619	0.39585646828086035	0.4254883472622145	0.456916241268108	0.490132726925071	0.5250920317427714	0.5616985450644204	0.5997932051251683	0.6391379181456479	0.6793987056260362	0.720128908878633	0.7607553156775482	0.8005716475027764	0.8387461048474532	0.8743519525539917	0.9064309884987383	0.9340966169229814	0.9566740018428551	0.9738553573544511	0.985823386786042	0.9932769070961112	0.9973058672050938	0.9991268798759741	0.9997836177510198	0.9999618194773919	0.9999956278784954	0.9999996991942525	1	1	1	1	1	1	1	1	1	1	1	1	1	1	1	1	1	1	1";
"0.005484532938421752	0.005926650109622799	0.006404405943481554	0.006920672885116235	0.007478555180953972	0.008081407304590456	0.008732853080251245	0.009436809052411675	0.010197506527414614	0.011019518406552955	0.011907785867149103	0.012867647089903102	0.013904870242778717	0.015025688454960407	0.01623683463682029	0.01754558455508309	0.018959798636389347	0.02048796930313883	0.022139268807009897	0.02392360974739783	0.025851694782208015	0.02793508744863143	0.030186276431026643	0.03261874715411336	0.03524706473198536	0.038086951909841786	0.04115539251734797	0.044470685642582	0.04805262966122219	0.051922549166787756	0.056103455716890994	0.06062016567530993	0.06549942232672404	0.07077004775490184	0.0764630799035837	0.08261191189862319	0.08925248058920877	0.0964233865826375	0.10416607843013657	0.11252501268223183	0.12154778779608423	0.13128530055014404	0.1417918641202963	0.15312530515828354	0.16534703671237977	0.1785220163796572	0.19271872092046335	0.20800897179186087	0.2244675857346674	0.24217194952400198	0.2612013059635703	0.2816357415320212	0.3035548506345921	0.32703586440879273	0.35215125152676946	0.3789655154097128	0.40753102344551007	0.43788276633740475	0.4700316053014476	0.5039560171688479	0.5395917514803802	0.5768195193323269	0.6154505498638015	0.6552103670610735	0.6957221380480021	0.736488569792583	0.7768844002827378	0.8161505194263395	0.8534116077410413	0.8877182542823305	0.9181259714974902	0.9438143045276968	0.9642371503445477	0.9792725198157838	0.9893150989120086	0.9952451723110954	0.9982417159933928	0.9994853948711597	0.999887911225466	0.99998323576194	0.9999985312245318	0.9999999281573196	1	1	1	1	1	1	1	1	1	1	1	1	1	1	1	1	1	1";
"0.005235799788257363	0.005657866495632505	0.0061139563118963545	0.006606810382595566	0.007139393201673678	0.007714906347748918	0.008336809784198939	0.009008841967116968	0.009735043831961478	0.010519780465407783	0.011367768594184004	0.012284105005373448	0.013274296492503947	0.014344294030203387	0.015500525963685986	0.016749938948833427	0.0181000377292585	0.019558929974003967	0.021135375662756625	0.022838836956570394	0.024679534948221973	0.02666851262806359	0.028817695167858835	0.031139960138692052	0.033649221312476905	0.036360493808487854	0.03928999476167249	0.04245522673917624	0.045875083392029475	0.049569949934505295	0.053561820018027756	0.05787441436381437	0.06253330410302309	0.06756605385723938	0.07300235366247604	0.07887417116832775	0.08521590061446525	0.09206452690479602	0.0994597794663549	0.10744429103231912	0.11606376386425991	0.12536711202563927	0.13540658319529136	0.1462378724388275	0.15792027458750316	0.17051661565177872	0.1840932871211163	0.19872013529468932	0.214470228754565	0.23141947998000975	0.24964614042993633	0.2692299249204627	0.29025091636354367	0.31278803317508075	0.33691692296687586	0.3627073004680636	0.3902193760341778	0.419499271491795	0.4505731925164433	0.48344013632032706	0.5180628130410908	0.5543565110458477	0.592175908925641	0.6312999214114117	0.6714148728702176	0.7120976193644677	0.7528007277918443	0.7928439753257941	0.8314185826020792	0.8676122486995295	0.9004654933885	0.9290667220010324	0.9526861385817652	0.9709312648550211	0.9838818984777756	0.9921406624331557	0.9967394716186163	0.9988966866148618	0.9997114726417696	0.9999455715372385	0.9999932343540424	0.9999995160937013	1	1	1	1	1	1	1	1	1	1	1	1	1	1	1	1	1	1";
"0.004998424567708259	0.005401356354252421	0.005836768724346665	0.006307279341128729	0.006815717142890387	0.0073651393127448445	0.00795884927204266	0.008600416062850827	0.009293696709295989	0.010042859496809626	0.010852406307010752	0.011727204087146012	0.012672511291250611	0.013694006904174199	0.01479783051222124	0.01599061381389621	0.01727952199765364	0.018672297838384276	0.020177300787763298	0.021803569710210097	0.02356086678823106	0.02545972975811058	0.027511550976235363	0.02972863043103599	0.03212425061026384	0.03471275906073528	0.0375096399406966	0.04053161892957098	0.043796743639623346	0.04732449239553978	0.05113588302067051	0.05525358688141677	0.05970205459867731	0.06450763941603542	0.06969874187043533	0.07530595032780192	0.08136218880164826	0.08790286953342379	0.09496608552595905	0.10259264806712926	0.11082648085116044	0.11971449340621934	0.12930696847011985	0.13965751755592043	0.15082328451517585	0.16286495777382604	0.17584681708724573	0.18983665160043703	0.20490565193061025	0.22112807829924624	0.23858087589064478	0.25734299242669334	0.2774944554740821	0.29911510286738546	0.3222828191687718	0.34707127557893375	0.37354684684354006	0.4017647145919177	0.43176382574293926	0.4635604301106092	0.49714019687112865	0.5324482598759964	0.5693773319243816	0.6077535824910687	0.6473209342758736	0.687723684512258	0.7284903050342405	0.7690204924872313	0.8085808141158662	0.8463161607642312	0.8812861828828878	0.9125364578458863	0.9392099414459659	0.9606930828360658	0.9767697942782192	0.987730990222094	0.9943730790814356	0.9978395675729086	0.9993373255521752	0.9998470317610351	0.9999754013345566	0.9999974972181441	0.9999998401281295	1	1	1	1	1	1	1	1	1	1	1	1	1	1	1	1	1";
"0.004771895802072733	0.0051565675082529	0.005572247141636279	0.0060214348135169266	0.006506831324661034	0.007031354498573102	0.00759815882612116	0.008210651700978086	0.008872515540713945	0.009587728840180406	0.010360591057180088	0.011195747978968275	0.012098219718043606	0.013073429428499215	0.01412723782664862	0.015265977359918095	0.01649648792895447	0.017826162745911225	0.01926298644221985	0.020815586013790518	0.022493282707640973	0.02430614307937054	0.026265043651275116	0.028381729232658526	0.030668888861476205	0.03314021978909201	0.03581051907918196	0.03869575550447288	0.041813177158568055	0.04518139172298929	0.04882048615167133	0.0527521256445699	0.056999681310263575	0.06158835172821183	0.06654529714721166	0.07189977969380026	0.07768330694966416	0.08392978525355797	0.09067567550291955	0.09796015637829608	0.1058252832008869	0.11431613439094673	0.12348097972420556	0.13337141263091434	0.14404245875977306	0.15555268025324145	0.1679642159992195	0.18134276564724974	0.19575751973229488	0.21128093808283885	0.22798843236984462	0.24595784746884786	0.265268701424002	0.2860011286749544	0.30823444265291516	0.3320451538412561	0.357504412197898	0.3846746737218871	0.4136052600079648	0.4443269108744361	0.4768446656838288	0.5111292356379895	0.5471062886746849	0.5846436590519359	0.6235364961805259	0.6634907460176626	0.7041060867460693	0.744860429713346	0.7850997277060452	0.8240389104734124	0.8607822357707147	0.894372507455016	0.9238782319430333	0.9485207721878146	0.9678283690782788	0.9817802097544124	0.9908793462687546	0.9960905406544311	0.998622274122031	0.9996210595025796	0.9999239177722997	0.9999897717323606	0.9999991922004479	0.999999989910336	1	1	1	1	1	1	1	1	1	1	1	1	1	1	1	1";
"0.009814878024387736	0.010524143781933643	0.011284659786272001	0.012100128294915798	0.012974518224201585	0.013912085598321787	0.014917393968945935	0.015995334052159686	0.017151150595967855	0.018390466604449297	0.01971931013997789	0.021144142125101233	0.022671889927634966	0.024309977741902015	0.02606636591909938	0.0279495833809782	0.029968773400736927	0.03213373350073117	0.034454963208207255	0.03694371155523312	0.03961203216207262	0.04247283546430433	0.045539951641278886	0.04882818820060297	0.05235340284457988	0.05613256847206375	0.06018384994315257	0.06452667969865658	0.0691818434036268	0.07417156084569669	0.07951957432978651	0.08525124222303573	0.09139363136971204	0.09797560982886384	0.10502794408118823	0.11258339016336236	0.12067678496600157	0.1293451229504544	0.13862763936018335	0.14856587250818326	0.15920368300266086	0.17058729060079164	0.18276524603880143	0.1957883692512732	0.2097096141488276	0.22458386505130842	0.24046766096096084	0.25741875821274723	0.27549553934665955	0.2947562878615307	0.31525814760912957	0.3370558182522093	0.360199919912801	0.38473479450451836	0.4106959694845601	0.43810674397784666	0.466974075480429	0.49728371358224327	0.5289941044024898	0.5620293145896754	0.596270761235535	0.6315479710842254	0.6676321039646191	0.7042080443674568	0.7409011933424938	0.7772358017200162	0.8126527923038495	0.8465158355223181	0.8781354747288451	0.906812180194286	0.9319012233685284	0.952897296848559	0.9695278560923504	0.9818332216651672	0.9902014644117472	0.9953272890839681	0.9980855972890796	0.9993499268734697	0.999825078908478	0.999964771155699	0.9999950549141331	0.9999995544946538	1	1	1	1	1	1	1	1	1	1	1	1	1	1	1	1	1	1";
"0.009370488083310194	0.010047643989519628	0.01077372848734467	0.01155227992218252	0.012387084479781962	0.013282208336055167	0.014242007214573908	0.015271151998661909	0.01637464937562784	0.01755786967209397	0.018826567641463437	0.020186913198163035	0.021645521390701472	0.02320948199700446	0.024886395098028504	0.026684407510859726	0.028612251039633253	0.030679284449247023	0.032895532458632346	0.03527174379132814	0.037819430159414635	0.04055092750907024	0.04347944946252867	0.046619144317015505	0.04998516862893327	0.053593743336924404	0.057462235695377506	0.06160922761602636	0.06605459503843847	0.07081959980256698	0.07592695639910678	0.08140094750021015	0.08726748868672324	0.09355424540498015	0.10029071505240134	0.10750832029072888	0.11524050415878882	0.12352282306602445	0.132393023428854	0.14189110130032792	0.15205936999631542	0.16294249935306646	0.1745874837403893	0.1870436556928609	0.20036257070168706	0.21459786821730958	0.22980501214178803	0.24604102888925747	0.2633639568679642	0.2818322540487245	0.301503953720119	0.32243554737456015	0.34468059837307935	0.36828787203088514	0.39329913452420523	0.4197462019340714	0.44764739397900805	0.47700321720248756	0.5077909772329762	0.539958460663239	0.5734164240886318	0.6080299340720594	0.6436089741869924	0.6798979711061969	0.716566272521956	0.7531997617444194	0.7892965749404868	0.8242698391258351	0.8574615567154693	0.888172623943574	0.9157130892076942	0.9394743083925602	0.9590183483299729	0.9741701284657229	0.9850863203520295	0.9922677096254476	0.9964886956838173	0.9986462934273975	0.9995739053248404	0.9998957453858165	0.9999813547039025	0.999997748825378	0.9999998038479333	0.9999999934929121	1	1	1	1	1	1	1	1	1	1	1	1	1	1	1	1";
"0.00894645892953438	0.009592973632934855	0.010286204878927273	0.011029527745668361	0.011826561720779687	0.012681185496917666	0.013597558598662404	0.014580141934302375	0.015633716544575075	0.01676340838291317	0.017974713672396864	0.01927352368247376	0.020666155073718457	0.02215937836656031	0.023760452612035098	0.025477155760981272	0.027317828883674716	0.02929140733373069	0.0314074692966148	0.0336762796660028	0.03610883684034765	0.03871692324545423	0.04151316352146338	0.044511078817267145	0.047725150852071095	0.051170884310349815	0.05486487808715219	0.05882490128113939	0.06306995807924161	0.06762038417846038	0.07249791971478328	0.07772579911357376	0.08332883938010698	0.08933354167924226	0.09576817001187292	0.10266286176083506	0.11004970709224379	0.11796285757639162	0.12643860302631638	0.13551542739128294	0.14523408870068774	0.15563772422163957	0.16677177703830537	0.17868403527528515	0.19142458903251958	0.20504572680080307	0.21960173096358684	0.23514865269763932	0.25174390763517457	0.2694457715152772	0.28831267285401363	0.3084022836002753	0.32977028743538545	0.35246886899363705	0.3765447716739093	0.40203676244691705	0.4289726044668662	0.4573651674083149	0.4872078354047394	0.5184688000352295	0.5510843314047781	0.5849508737770437	0.6199161261401295	0.6557691253445566	0.6922301973422361	0.728941354565362	0.7654591160030915	0.8012521053251682	0.8357070624008428	0.8681474959083619	0.8978701813491596	0.9242028445007696	0.9465830815727685	0.9646510741565878	0.9783376198590721	0.9879178586984324	0.9939981681825838	0.9974155281528104	0.9990674692464713	0.9997298207698943	0.999940416513813	0.9999906231943606	0.9999990006472714	0.999999883104104	0.9999999150346729	0.9999999316472592	0.9999999354524401	0.9999999583171439	1	1	1	1	1	1	1	1	1	1	1	1";
"0.008541879344461885	0.009159159115365618	0.009821042917049726	0.010530754247894866	0.011291747989327182	0.012107728553177627	0.01298266784495332	0.013920824093584114	0.014926763803497875	0.01600538112354856	0.017161923922234958	0.018402018168153598	0.0197316963680911	0.02115742332676726	0.02268613055679193	0.024325247585378393	0.026082738271439438	0.027967139321212267	0.02998759760439967	0.03215391767448908	0.034476604766187476	0.0369669169794859	0.039636913230241586	0.0424995133531136	0.04556855676926335	0.04885885775674917	0.052386286552325606	0.056167825493368455	0.060221652098806186	0.06456720900665659	0.06922529737039453	0.0742181461773607	0.07956952049369906	0.08530478599804431	0.0914510327179271	0.09803714168903667	0.10509390300716642	0.11265409170014783	0.12075256543107314	0.12942634177304946	0.1387146795203613	0.14865914327198634	0.15930362181082994	0.17069436015837136	0.18287994083498726	0.19591120896154213	0.209841152712963	0.22472468936450946	0.2406183839696422	0.2575800222779787	0.2756680232057473	0.29494069148663443	0.31545518841535325	0.3372662367565744	0.36042445689119423	0.3849741923102443	0.41095094910392305	0.4383779778894335	0.467262172469462	0.4975891699374559	0.5293172638708515	0.5623702975906865	0.5966293977323764	0.6319236812921322	0.6680237899112303	0.7046139196265147	0.7413186363898382	0.7776610991519176	0.8130809626727465	0.8469404750813064	0.8785486119669739	0.9072044038166974	0.9322620863740136	0.9532162008472441	0.9697954713175969	0.9820433774823233	0.9903530586130238	0.9954254020565808	0.9981409021973503	0.9993760818672704	0.9998349732792697	0.999967568951798	0.9999955902874293	0.9999995953121988	1	1	1	1	1	1	1	1	1	1	1	1	1	1	1	1";
"0.008155881969994262	0.008745268751841118	0.009377244584838719	0.010054888786146882	0.010781496757467661	0.011560609525642992	0.012396016144864172	0.013291785327025754	0.014252276095742424	0.015282163012694087	0.016386456016911907	0.01757052952838609	0.018840142034512224	0.020201468943423558	0.02166112863366904	0.023226216950523414	0.02490433925861056	0.026703648020531885	0.028632881968320045	0.03070140520702402	0.03291925130473435	0.03529717656955594	0.037846699379607655	0.04058016568151037	0.04351079856705492	0.0466527583707574	0.05002120885414971	0.05363238632603863	0.05750366681632103	0.06165364741849606	0.06610222216057514	0.0708706593936457	0.07598169736298643	0.08145963651128384	0.08733040567373522	0.09362169348201364	0.10036301677205589	0.10758582353929724	0.11532357879903118	0.1236118639344164	0.1324884498867564	0.141993366335642	0.15216895213164713	0.16305990978568735	0.17471326255090125	0.1871783866462502	0.20050686386794295	0.21475237162118185	0.22997040403465396	0.24621802850004762	0.26355331795610426	0.282034759595274	0.3017204159767212	0.32266679774729007	0.34492749490009567	0.3685512641357448	0.3935798689830403	0.4200450858721021	0.4479651851458974	0.47734056926226587	0.5081484109114651	0.5403362904826118	0.5738146941446229	0.6084482877756837	0.6440465815809118	0.680353315172529	0.7170370056328439	0.7536824635341333	0.7897865335228321	0.8247608121728041	0.8579455693285246	0.8886399386813123	0.9161524199625845	0.9398734430619491	0.959365386729758	0.9744553193730864	0.9853043563341631	0.9924196539417148	0.9965827735533983	0.9986964057880712	0.9995959316103454	0.9999033218574558	0.9999832462137161	0.9999980262016147	0.9999997948523647	0.9999999531555441	1	1	1	1	1	1	1	1	1	1	1	1	1	1";
"0.00778764114011822	0.0083504186066549	0.008953862736591335	0.009600912515498326	0.01029471761051607	0.011038655537250272	0.011836348398767588	0.012691680390086293	0.013608811641043304	0.014592208111930478	0.01564665448290187	0.016777281359913215	0.017989589089170085	0.019289473897209447	0.020683257824956523	0.022177716963643367	0.023780116212536343	0.025498240489117485	0.027340436577411833	0.029315647637738404	0.03143346107910183	0.03370414965730904	0.03613871927798965	0.03874896397334701	0.04154751879804314	0.0445479148693229	0.047764646979612	0.05121323235957569	0.054910282104446914	0.05887358162433191	0.06312215153042489	0.06767634361302681	0.07255791462274837	0.0777901186750276	0.08339779365500449	0.08940746312035826	0.0958474143039799	0.10274780893221175	0.11014076425871534	0.11806045714865147	0.12654320942169847	0.13562753619444753	0.14535422537413753	0.15576645494395489	0.16690969690498375	0.17883177970381098	0.19158284169290066	0.20521519736153154	0.21978317834302202	0.23534287069624651	0.2519517324637396	0.26966808540546433	0.28855038393716004	0.30865633015057825	0.3300416396503461	0.35275850724544344	0.3768536655842741	0.40236587710459515	0.42932285644563695	0.45773738401558933	0.4876027254753371	0.5188868924687234	0.5515258860599431	0.5854158035319316	0.6204038577028758	0.6562784508430936	0.6927590926844026	0.7294867249264928	0.7660165762306046	0.8018156693706896	0.8362689038474099	0.8686977723882766	0.8983970619300681	0.9246928947232581	0.9470221977857978	0.9650261677046306	0.9786389124834445	0.9881415171794569	0.9941482586863736	0.9975040830354194	0.9991117951930102	0.9997478373674287	0.9999460301367612	0.9999918737731505	0.9999991844043816	0.999999900266945	0.9999999148741647	0.9999999395640761	1	1	1	1	1	1	1	1	1	1	1	1";
"0.007436369227083707	0.007973763299157562	0.008549989913324004	0.009167855910555245	0.009830368338035831	0.010540753452575677	0.011302469849934365	0.012119225361143647	0.0129949952553323	0.013934042321101544	0.014940937199695456	0.016020578231395678	0.01717821906537149	0.018419491238254745	0.019750431951625683	0.02117751278765096	0.02270767146596493	0.024348344386779592	0.026107504959483382	0.027993694537159924	0.030016070957537354	0.03218444781589884	0.03450934113039465	0.03700201743348145	0.03967454918415515	0.04253986698230761	0.04561182383579001	0.04890524934182661	0.05243602693603243	0.05622115723731014	0.06027883157292184	0.06462851531731298	0.06929102492908128	0.07428861499630314	0.07964506695286601	0.08538577783576547	0.09153785769258724	0.09813021794843035	0.10519367464124496	0.11276103685419275	0.12086719335942199	0.129549195823146	0.13884634085606287	0.1488002282680074	0.15945479176504007	0.17085631902241813	0.18305343053382633	0.19609701855109338	0.2100401239752468	0.2249377025562304	0.24084636987512906	0.2578239563026252	0.2759289242548379	0.29521961802250646	0.3157532323206724	0.3375845117214817	0.3607640898669135	0.38533629828894367	0.41133661371563096	0.43878822605780754	0.46769791037196407	0.4980511533335579	0.5298060013422043	0.5628859722271322	0.5971717325753394	0.6324917969769974	0.6686160015744713	0.7052275254036258	0.7419496189879102	0.7783038261849362	0.8137278886612777	0.847581837643147	0.8791723181828585	0.9077961599351178	0.9328060590083171	0.9536963198330549	0.9701976596211396	0.982358429652611	0.990579478820736	0.9955711464080904	0.9982223931817784	0.9994141470642585	0.9998491226624925	0.9999714900202206	0.9999963335049853	0.9999997187233192	1	1	1	1	1	1	1	1	1	1	1	1	1	1";
"0.007101317105222927	0.007614499107526566	0.008164765111609917	0.008754793722241904	0.00938745813380028	0.01006584010662793	0.010793239595184934	0.011573200984027948	0.01240951723515787	0.013306261936452337	0.01426779888682787	0.015298807857081315	0.016404303595028244	0.017589666760287757	0.0188606627698317	0.020223471201475125	0.021684720751935845	0.023251514301928386	0.024931463946737915	0.02673273253454709	0.028664067608498395	0.03073484427491047	0.03295510504324652	0.03533562027645878	0.03788792038938214	0.040624364652908425	0.04355818831876811	0.04670357023860138	0.050075688559005405	0.05369079847731554	0.0575662963338481	0.06172079624804923	0.06617421493052657	0.07094784404820403	0.07606444978431419	0.0815483510298706	0.08742551247219096	0.09372364951871887	0.10047231194552958	0.10770297816833459	0.11544915500056545	0.12374645875097662	0.13263270117145412	0.1421479556766524	0.15233460164258508	0.16323739185289302	0.17490340307896263	0.18738205279820536	0.20072498032382402	0.21498592162681499	0.2302204144412967	0.24648558704538476	0.26383955574844936	0.2823408650030619	0.30204761489579784	0.32301635484442376	0.34530069053851836	0.3689493920244625	0.39400419666506153	0.420496845369385	0.4484455080916154	0.47785044477454064	0.5086886246169429	0.5409073113615019	0.574416561329237	0.6090804804247417	0.6447077952391037	0.6810412578859586	0.7177480918609659	0.7544115036473493	0.7905263552503353	0.8255019224800739	0.8586758517368014	0.8893446165599742	0.9168143566665075	0.9404741507272136	0.9598868689655023	0.9748829147134147	0.9856301613915247	0.9926456205669292	0.9967217039851961	0.9987696327809672	0.9996276427428594	0.9999140171719044	0.9999860088242878	0.9999984613138461	0.9999998562043785	0.9999999656148114	1	1	1	1	1	1	1	1	1	1	1	1";
"0.006781770551389053	0.007271860639852435	0.007797366790284224	0.00836084702901621	0.00896504474835281	0.009612902752498933	0.010307574051637439	0.011052441081501921	0.011851130317903184	0.012707530246449737	0.013625807196856347	0.014610431679090355	0.015666194773892472	0.016798233726653282	0.018012055580288167	0.01931356365281352	0.02070908804922754	0.022205413614104837	0.023809813808583546	0.025530083829395468	0.027374580436762944	0.029352258746017348	0.03147271682150994	0.03374624078708767	0.03618385136211041	0.038797356020740185	0.0415994059034827	0.04460354793393228	0.04782429692432781	0.05127718878328576	0.05497885565037853	0.05894710335039733	0.06320098078982973	0.06776085761449369	0.07264852418682119	0.07788726129951667	0.0835019382660846	0.08951910914870755	0.09596709872488131	0.10287610589629281	0.11027828538419378	0.11820786227921	0.12670119664177573	0.13579685336836936	0.145535669513909	0.1559608746037246	0.16711799707134117	0.1790549234379254	0.19182184423210716	0.2054711474182869	0.2200572097882718	0.2356361916269767	0.2522656076001699	0.2700038361545398	0.2889093819140531	0.30904000349125516	0.3304514420869154	0.3531959139473313	0.3773201586389096	0.4028628955744871	0.4298517750357341	0.45829945941823613	0.48819902245783375	0.5195181924797134	0.5521925814901919	0.5861177417232123	0.6211401568896092	0.6570472649005394	0.6935573255652265	0.7303096863358847	0.7668575770695153	0.8026656213673958	0.837115905663874	0.869526881836755	0.8991903185174804	0.9254299202226526	0.9476816702813041	0.9655883059212491	0.9790890971822358	0.9884742497475428	0.9943701105876813	0.9976337010631093	0.9991757607734055	0.9997732679887883	0.9999537057001409	0.9999935020347344	0.9999993913672425	0.9999999224033528	1	1	1	1	1	1	1	1	1	1	1	1";
"0.0064770492475547696	0.0069451193201994785	0.0074470137370762	0.007985177025864737	0.008562228509517099	0.009180978959676275	0.009844439486093986	0.01055584156639803	0.01131864838581271	0.012136573086799139	0.013013596466117924	0.013953987817378884	0.014962323738931744	0.01604351060910777	0.01720280856014749	0.018445857172491323	0.019778703189786057	0.021207826471067708	0.02274017555657317	0.024383197001762544	0.026144875266050218	0.02803376487520406	0.03005903627931154	0.032230517283063566	0.03455873741082355	0.03705498362971731	0.03973134011439324	0.04260075842586409	0.04567711187780147	0.04897525104435399	0.05251108337983205	0.056301630555402334	0.060365112831895065	0.06472102162883032	0.06939020345705367	0.07439494475245102	0.07975906314074423	0.08550798850714206	0.09166887022838258	0.09827066165593468	0.10534422447399075	0.11292241086677406	0.121040159012959	0.12973457463342425	0.13904500766825487	0.1490131168801884	0.15968289639149505	0.1711007010540212	0.18331521099938847	0.19637739488014833	0.21034035345307173	0.22525911764228762	0.24119038022390255	0.2581920277116279	0.2763225980954913	0.2956404851986142	0.31620293886870504	0.3380647407216016	0.3612765329209855	0.3858826413438097	0.4119184879866794	0.43940716635208804	0.468355299078065	0.49874810334439124	0.5305432791506721	0.5636638274985941	0.5979897361781381	0.6333485864388978	0.6695090225151629	0.706152629907259	0.742900700587385	0.7792723218062985	0.8147023347526837	0.848547401366099	0.8801106409858324	0.9086855694391197	0.9336225370796831	0.9544156086925493	0.9707985897417285	0.9828273062223915	0.9909145355490323	0.9957849887495365	0.9983404530477737	0.999468271540762	0.9998686674647494	0.9999766883314221	0.9999972568977558	0.9999997671308114	1	1	1	1	1	1	1	1	1	1	1	1";
"0.006186506418159587	0.006633580965672742	0.007112962849116915	0.007626986360397389	0.008178154690076857	0.008769151567270398	0.00940285281989492	0.010082347489779583	0.010810939723446019	0.011592180171480204	0.012429868072090218	0.013328083381137902	0.014291197349697334	0.015323896833239672	0.016431205459067955	0.017618512524085	0.018891592011262944	0.020256636438845576	0.021720282154502907	0.023289645479344347	0.02497234928516047	0.026776572342344564	0.028711074293175546	0.030785246591212626	0.03300915024163951	0.03539356763680626	0.037950053258006954	0.04069098539460174	0.04362962103821643	0.04678015880592562	0.050157808492276836	0.05377884589210897	0.05766069838340181	0.06182201144718892	0.0662827313059964	0.07106418838910689	0.07618918287771452	0.08168207601673073	0.08756887171253515	0.09387733168698581	0.10063705510219019	0.10787957097074742	0.11563844112361382	0.12394933805138716	0.13285013526946812	0.1423809679885515	0.1525842893655456	0.16350491573424936	0.17518999987269787	0.18768904218217522	0.201053754715485	0.2153379437552714	0.2305972503221735	0.24688886821614653	0.2642710001806643	0.28280224787609104	0.30254078947811774	0.32354321982326256	0.3458631793199983	0.3695494461390335	0.3946437312335526	0.4211776995714045	0.4491693870402527	0.47861883701437563	0.5095026834781794	0.5417677345686308	0.5753233966161999	0.6100328978906902	0.6457038058170711	0.6820773461974285	0.7188188040223324	0.7555089338405218	0.7916396006141254	0.8266165425977676	0.8597734714381976	0.8904027932926597	0.917807131558926	0.9413735391915249	0.9606657273049355	0.975519304860967	0.9861126074630263	0.9929776978796067	0.9969235779839212	0.9988742446908146	0.9996717936348287	0.9999283191779769	0.9999891671643175	0.9999989498200187	0.9999999028692341	1	1	1	1	1	1	1	1	1	1	1";
"0.005909527064471906	0.006336585923056115	0.006794506050787714	0.007285516436700172	0.007812009565054502	0.008376547947343294	0.008981880307744135	0.009630954616460135	0.01032693071801207	0.011073196440910133	0.0118733856627235	0.012731394000442165	0.01365139498780129	0.014637868595889812	0.0156956144170234	0.01682977906998513	0.018045880759797617	0.019349832372321515	0.02074797759634329	0.022247113208819603	0.023854526630604674	0.025578027158752074	0.02742598728008102	0.029407379230531296	0.03153182057841042	0.03380961257089243	0.036251800478958825	0.038870212678200046	0.041677523956888264	0.04468730862207745	0.047914105244484764	0.05137347870850199	0.05508209786169045	0.059057796628482866	0.06331966069960623	0.06788810146736222	0.07278494246722736	0.0780335142667289	0.08365873254301257	0.08968720011209473	0.09614729220622523	0.10306926587240384	0.11048533723219804	0.11842978908069124	0.12693905621285356	0.1360517686655633	0.14580884422252607	0.15625358533042355	0.16743160612330446	0.17939087848191185	0.19218168006022052	0.205856488502754	0.22046977842722873	0.23607779980642488	0.2527381564646999	0.27050931229304004	0.28944986112255083	0.3096176171670769	0.3310683861503417	0.35385440733602624	0.37802241805253667	0.403611090874725	0.43064796930178095	0.4591455293288611	0.48909655467460617	0.5204683518363883	0.5531959306424817	0.5871740238471341	0.6222480008134925	0.6582038420498051	0.6947579039998373	0.7315471064810133	0.7681216664535943	0.8039425543952273	0.838387629787398	0.8707706876462608	0.9003789772761307	0.9265325831128679	0.9486661077243401	0.9664248111716044	0.9797559537194548	0.9889638374016506	0.994693336545587	0.9978197749845991	0.9992655508239735	0.9998077873208604	0.9999636003839851	0.9999954669307912	0.9999996602200706	0.9999999697049428	1	1	1	1	1	1	1	1	1	1";
"0.005645524369766347	0.006053505454040285	0.006490969179153382	0.0069600452171098785	0.007463018222184603	0.008002338039805941	0.008580629715172037	0.009200709992820133	0.00986559642822699	0.01057852729689938	0.01134297355291274	0.012162655872930313	0.013041564112883056	0.013983976435967448	0.014994479662115642	0.0160779896069821	0.01723977919287843	0.018485499441041164	0.01982120968744741	0.0212534040705128	0.022789046731209243	0.024435599405467228	0.02620106317053437	0.0280940125524505	0.030123636008148366	0.03229978354361798	0.034633007890447494	0.037134617262820614	0.03981672546647455	0.04269231163912448	0.04577527575924701	0.04908050287790681	0.052623932970247055	0.05642262549733215	0.06049483984841249	0.06486010827210124	0.06953932319075502	0.074554818758681	0.07993046109095446	0.08569173779254108	0.0918658540086337	0.0984818282281942	0.1055705814751202	0.11316504020687244	0.12130021772327637	0.1300132984152921	0.13934371031083753	0.14933320423389476	0.16002586295765758	0.17146813623037452	0.18370880813291143	0.1967989447842467	0.21079175066360267	0.22574237191207677	0.2417075932125785	0.25874541918069294	0.2769144678062279	0.29627324034989666	0.3168790448523139	0.3387867191191018	0.3620469269442013	0.3867039753994069	0.4127932147865956	0.44033758179838534	0.46934344523725235	0.49979565423948497	0.5316513515286705	0.5648327688311564	0.5992188487659914	0.6346357782144043	0.670846769667941	0.7075417931745064	0.744328380699466	0.7807255043961372	0.8161635640142063	0.8499941734267576	0.8815150859016804	0.9100148478597916	0.9348403582072501	0.9554853922859271	0.9716886563391669	0.9835176525621768	0.9914035268210899	0.9960930217580569	0.9985071951585093	0.9995424570963294	0.9998942615148949	0.9999830373985396	0.9999982824099415	0.9999998754411823	1	1	1	1	1	1	1	1	1	1";
"0.0053939425444650725	0.0057837432571904235	0.006201712723510504	0.006649886191090369	0.007130446309602938	0.0076457333463814435	0.008198256557454249	0.00879070526537004	0.009425964820858392	0.010107129685018305	0.010837512854586239	0.011620673432695797	0.012460420469790068	0.013360843657775094	0.014326324622510512	0.01536156193526041	0.01647159299769699	0.017661818607552917	0.018938027288678955	0.020306426702551998	0.021773670162083078	0.02334689047998894	0.025033730859340617	0.026842388609032545	0.02878164541960087	0.030860916088951963	0.03309028414955451	0.03548056358338054	0.03804333308784769	0.040791002167765995	0.04373686020824195	0.04689514184338675	0.050281092738676585	0.053911030840946304	0.0578024240246062	0.0619739621537575	0.06644564500314622	0.07123885323416193	0.07637643941635812	0.08188283180995926	0.08778409152664166	0.09410805104853892	0.10088437965454677	0.10814468715686293	0.11592261163980899	0.12425391396023579	0.13317656151556254	0.14273078286689753	0.15295913449444642	0.1639065411306716	0.17562026078030932	0.18814991172540896	0.20154732089088134	0.21586642240108392	0.23116297542819025	0.24749428708166507	0.2649186827441723	0.28349487517961347	0.3032811307108533	0.32433412224829106	0.34670754243891355	0.37045017390053187	0.395603691427098	0.4221996411941584	0.45025585332737794	0.4797720337001944	0.5107243217963284	0.5430588242567762	0.5766839555386388	0.6114616162740816	0.6471976130861696	0.6836308703128388	0.720423706495787	0.7571531695561745	0.793306592329968	0.8282843545142013	0.8614141972124967	0.8919824246905467	0.9192863636639498	0.9427101172463713	0.9618189096536733	0.9764565261661736	0.9868175542089634	0.9934573385268903	0.9972101545541625	0.9990189056239562	0.9997304638937066	0.9999462282211391	0.9999929625413726	0.9999994708594925	0.9999999849902059	1	1	1	1	1	1	1	1	1";
"0.005154251070630833	0.00552673042817448	0.00592612722867801	0.006354385715888893	0.006813592289476411	0.0073059819609543105	0.007833953855953748	0.0084000782137297	0.009007110823460384	0.009658008587827012	0.01035593970235483	0.011104301787120277	0.011906738663803892	0.01276715704648123	0.01368974243762249	0.014678987143092036	0.015739704307416277	0.016877054811824173	0.01809657235673944	0.01940418712882547	0.02080625984287095	0.02230960653332728	0.023921534838402193	0.0256498763053541	0.027503028085164537	0.029489985891690267	0.031620393163979826	0.03390458519714199	0.036353632883768215	0.038979400217837794	0.04179459672776528	0.04481283606618833	0.048048696087907315	0.05151778713673946	0.055236822227026104	0.05922368795347512	0.06349752050554366	0.06807879198526262	0.07298938855646446	0.07825269946703942	0.0838937127453938	0.0899391092768004	0.09641733709730901	0.1033587453717632	0.11079563269035482	0.11876238136422639	0.12729552314278847	0.1364337998964116	0.14621823553517438	0.1566922541830463	0.167901592208533	0.1798943524341409	0.1927209376576467	0.20643397056682586	0.2210880583623668	0.23673958956988253	0.2534463073798585	0.27126680290658467	0.2902597889911854	0.3104831875387512	0.3319928688060333	0.3548411279677443	0.3790746854165313	0.40473214250695033	0.4318408784383213	0.46041308634616707	0.4904411047222529	0.5218916008775213	0.5546986658738663	0.588755788793861	0.6239066514997952	0.6599350120227816	0.6965543553017832	0.7333979168722505	0.7700113525210532	0.8058500865490802	0.8402855683878508	0.8726246188569325	0.902147638161286	0.9281693543239053	0.9501224511481295	0.9676563338783494	0.9807308598828122	0.9896722948422723	0.9951538445681142	0.9980788000621341	0.999386194441095	0.9998516804416335	0.9999751518212241	0.9999974417317897	0.9999998579378966	0.999999994625969	1	1	1	1	1	1	1	1";
"0.004925946479140846	0.005281927490417976	0.005663633552982703	0.006072923309048051	0.006511790281666727	0.0069823710831062305	0.007486957625623503	0.008028007403868215	0.008608154014329478	0.009230223163377306	0.009897242368727764	0.010612460236754256	0.01137935838694176	0.012201670282736504	0.013083397737815881	0.014028832965619749	0.015042577605776432	0.016129563342124904	0.017295079395437302	0.018544795313193516	0.019884790457199424	0.021321579451245905	0.022862147322973904	0.024513981724292068	0.026285108275669204	0.028184129987499203	0.03022026410933494	0.03240339760946927	0.034744100431663545	0.03725373327269648	0.03994444462272384	0.042829254511761734	0.04592210817784575	0.04923793715841738	0.052792732051386564	0.056603608932566496	0.06068888407648424	0.0650681525454515	0.06976237383599078	0.07479395605471176	0.08018683635875941	0.08596658627603042	0.0921604995776607	0.09879768394682226	0.1059091625146253	0.11352796283552669	0.12168921084762509	0.13043020221377194	0.1397905005337611	0.1498119790555557	0.16053885691799688	0.17201772770361545	0.1842975277991126	0.19742947581079354	0.21146692615710141	0.2264651872104287	0.24248120095176462	0.2595731253552638	0.2777997241725687	0.297219623350868	0.3178902436925295	0.3398664963328781	0.3631990826175788	0.38793226205647896	0.41410128027020116	0.4417288350773179	0.4708209165547885	0.5013617904020753	0.5333077663481848	0.5665799102609693	0.6010555744674922	0.6365588134887177	0.6728500595087253	0.7096156878296155	0.7464586742465493	0.7828923800384514	0.818340489446197	0.8521469823038503	0.8836015584462441	0.9119852912115983	0.9366400099555366	0.9570593892157333	0.9729900360421508	0.9845178150170439	0.9921024013413355	0.9965243830734712	0.9987335869086867	0.9996385193733257	0.9999250671691435	0.999989869559676	0.9999992430465457	0.9999999806163035	1	1	1	1	1	1	1	1";
"0.004708550282604151	0.005048821046891565	0.005413681455967655	0.005804908718760908	0.006224407715766019	0.006674221284518844	0.007156539946859059	0.007673712633209345	0.0082282576895726	0.008822874623800214	0.009460458847777626	0.01014411622072201	0.010877172175396995	0.011663198904322599	0.012506018892490305	0.013409737136581223	0.014378751272509668	0.015417777180642219	0.0165318703936523	0.017726451346334857	0.019007330366094883	0.02038073753168537	0.021853349559333175	0.0234323272813114	0.02512534060467702	0.026940617275621595	0.02888697093372854	0.030973850294298	0.03321137662299117	0.035610403292633944	0.038182550672948894	0.040940272487388574	0.04389691092477678	0.04706675060501929	0.05046509063280761	0.054108313282028336	0.05801394254142234	0.062200746348746394	0.0666887902331776	0.07149953484212604	0.07665591865086699	0.08218245267063573	0.08810530133490577	0.09445239343344738	0.10125350694033411	0.10854036307956769	0.11634672533863556	0.12470848422256087	0.13366374082236515	0.14325286823153469	0.1535185727224987	0.1645059429072528	0.17626239809492283	0.1888377272872865	0.20228393402204162	0.21665513470321057	0.23200726023891516	0.2483978082380859	0.2658852662463139	0.28452851315266053	0.3043859496279114	0.32551436400607175	0.3479675205718141	0.3717942107228927	0.3970360389088172	0.42372437511006483	0.4518767329785009	0.48149230422626943	0.5125464761071674	0.5449842725622338	0.5787126177602325	0.6135914048466724	0.6494237505568525	0.6859450903649943	0.7228132652880747	0.7595997067563455	0.7957848694700741	0.8307610544609446	0.8638469935053825	0.8943198153982291	0.9214689945623277	0.9446744317377186	0.96350409215684	0.9778148936510419	0.9878270031889066	0.9941318853397986	0.9976023264457506	0.999208740633532	0.9998026000341304	0.9999660428339943	0.999996484263555	0.9999998279751466	0.9999999949102604	1	1	1	1	1	1	1";
"0.009698288287129325	0.010318822192054147	0.010979057201445458	0.011681533626472734	0.01242895021804466	0.013224183808477152	0.014070290974144596	0.014970526032817564	0.01592834898270089	0.016947442247969863	0.018031722118771583	0.019185355695902923	0.020412775848198717	0.021718697563849993	0.023108136010611482	0.024586425016150153	0.026159241165611465	0.027832618506724176	0.029612976096847744	0.031507138376728805	0.033522369019805515	0.035666382397208526	0.03794738669647307	0.040374108047323144	0.042955821736349036	0.04570238744820667	0.04862428338525556	0.05173264342199838	0.05503929564799324	0.058556806946482576	0.06229852339787571	0.06627860912055356	0.07051210688608468	0.07501497090853589	0.07980412847510976	0.08489752029774084	0.09031416647713111	0.09607422571903755	0.10219894979923036	0.10871095463529669	0.11563405041091747	0.12299339371433161	0.1308155175057459	0.13912837636917708	0.14796136714690877	0.1573453644733762	0.1673127207577	0.17789726301506548	0.1891342681305553	0.20106041173028438	0.213713671928389	0.22713320491570926	0.24135917441265736	0.2564324954030598	0.2723945097267407	0.28928658716159183	0.30714958975779627	0.3260231624258545	0.345944980168971	0.3669495809107635	0.3890672090206436	0.41232212273369523	0.4367307657756923	0.46229939402463543	0.48902135295507915	0.5168738068580148	0.5458138762880091	0.5757742320133978	0.606658086646494	0.6383336501290942	0.6706283135831658	0.7033231369783891	0.7361454046696976	0.7687688726448858	0.8008082364576076	0.8318242652291865	0.8613327499462363	0.8888230170038937	0.9137873642889656	0.9357628233494828	0.9543839594829187	0.9694411730241443	0.9809335382018118	0.9890996213538571	0.9944078498458631	0.99749438116394	0.9990538353253018	0.9997129006848096	0.999934406375551	0.9999897064550678	0.9999990368785808	0.9999999725675874	0.9999999951786279	1	1	1	1	1	1	1";
"0.009274044190576002	0.009867434812791202	0.010498790926448984	0.011170540148555466	0.011885266261872045	0.012645717783938722	0.01345481933348537	0.014315681102365942	0.01523161438207461	0.016206139016119954	0.01724300227004838	0.0183461876264135	0.019519935178669824	0.020768755185609947	0.022097443409514944	0.02351110364308471	0.025015161503134938	0.02661539256424446	0.028317934814524093	0.030129318700071114	0.03205648769681504	0.0341068287371018	0.03628819257850157	0.038608926609342384	0.04107790812220387	0.04370457397389798	0.046498949145245584	0.04947169199748909	0.05263412858560806	0.05599828957730512	0.0595769526679092	0.06338368972093357	0.0674329060664074	0.07173989509430322	0.07632087619317626	0.08119305630418731	0.0863746771257149	0.09188506201952562	0.09774468026448833	0.10397518553357195	0.11059948692523681	0.11764178023514449	0.1251276144092277	0.13308392009765158	0.14153906028814983	0.1505228455589722	0.1600665764872778	0.17020303127753553	0.1809664600838575	0.192392556295651	0.20451839374203834	0.21738232814375189	0.23102381899495159	0.24548333496015906	0.2608019794281243	0.27702120525534574	0.29418235302828416	0.3123260984635399	0.3314917149454239	0.35171620025603345	0.37303317323847485	0.39547149537156134	0.41905361140139613	0.4437935525649276	0.4696944446053318	0.4967457104949844	0.524919537982947	0.5541669605007671	0.5844131974313884	0.6155524541257147	0.6474424735615715	0.6798981518903513	0.7126860989459267	0.7455192919933428	0.7780536344888556	0.8098874915263957	0.8405662468509302	0.8695937338128344	0.8964536277977175	0.9206423248934376	0.9417144981226444	0.9593388525495039	0.9733572869116902	0.9838349190833645	0.9910821459258862	0.9956312784565141	0.9981577067320938	0.9993584829910926	0.9998257062562097	0.9999658781078135	0.9999957184966719	0.9999997108363478	1	1	1	1	1	1	1	1";
"0.008870494504631638	0.009438066824440356	0.01004195276571875	0.010684474096548704	0.011368103128647023	0.012095468632289127	0.01286936855560217	0.013692777491445707	0.014568862931690383	0.01550099188743301	0.01649274845841812	0.017547945604385974	0.01867063656869998	0.019865137092509585	0.021136035200999586	0.022488213169912816	0.023926865438880836	0.02545750922926249	0.027086023851904895	0.028818656377251957	0.030662051067575993	0.03262327428896971	0.03470983898126276	0.03692973657437927	0.03929145946584951	0.04180404976705626	0.04447708217577477	0.04732078139092606	0.05034598377123109	0.053564210235165756	0.05698769861915923	0.06062944848585387	0.06450326123674348	0.06862379300739853	0.07300659130810935	0.07766815660741921	0.0826259814741711	0.08789860526685343	0.09350568053462045	0.09946800381077897	0.10580758721224683	0.11254771542017945	0.11971292593353423	0.12732920627811353	0.13542386162409778	0.14402569487034603	0.15316493645051854	0.16287332760889217	0.1731840681078846	0.18413184448778994	0.19575277053948442	0.20808432528585233	0.22116521369638378	0.2350352587586564	0.2497351642555402	0.26530623144959303	0.2817899889601286	0.2992277358316265	0.3176599081006873	0.3371253332440819	0.35766028832223734	0.37929734053524894	0.4020638759142128	0.4259803556913785	0.45105816663521275	0.47729713710051125	0.5046824112784675	0.5331808961649905	0.5627371017947262	0.5932682721592054	0.6246591659166436	0.6567561277341007	0.6893611576858748	0.7222259986120968	0.7550473686412777	0.7874639772404954	0.8190571829448634	0.849357036575466	0.8778562422515014	0.904034545619152	0.9273954420883811	0.9475155456393443	0.9641028268718466	0.9770569553679581	0.986513873449854	0.9928583257555904	0.9966841078273962	0.9986982453143963	0.999588769159334	0.9999024299859113	0.9999842351534667	0.9999985058724695	0.9999999383995695	0.9999999891701672	1	1	1	1	1	1";
"0.008486795523479819	0.009029819007223005	0.009607584716656499	0.010222316357121505	0.010876376758996817	0.01157228370501458	0.01231271215441762	0.013100509892033806	0.01393870638633758	0.014830524420479265	0.01577939246751082	0.01678895863419053	0.01786310306161229	0.019005954823106245	0.02022190136876018	0.021515617414643133	0.02289207146357982	0.024356548766100158	0.025914670370463657	0.027572416259858033	0.02933614662922942	0.03121262391226843	0.0332090383197433	0.0353330407228288	0.03759276171926898	0.039996845496281505	0.04255448660022425	0.045275450267076835	0.04817012326279769	0.05124953810120169	0.05452541760249647	0.05801021460735685	0.061717157127925686	0.06566028443074089	0.06985450743127154	0.0743156435757739	0.07906047345418066	0.08410678783002196	0.08947344731986456	0.09518042298494127	0.10124886398994999	0.10770113753197395	0.11456089592200373	0.12185310320133208	0.12960412697508614	0.1378416970084367	0.14659501651961568	0.15589479817150273	0.1657732060095836	0.17626388418493827	0.18740196230885908	0.19922397523710716	0.21176779478673438	0.22507251389802818	0.23917827467813968	0.2541260317439196	0.269957254812578	0.2867135394727236	0.30443608477886386	0.32316505511716914	0.3429387748243357	0.3637927046118634	0.38575825540786	0.40886117998459864	0.4331198179159821	0.45854271259612506	0.48512607795363044	0.5128504972235984	0.5416772041188384	0.5715436899493656	0.6023587634916044	0.6339969998004465	0.6662927997410998	0.6990343374759947	0.7319577970480394	0.7647428608605211	0.797010467538594	0.8283246278979864	0.8582002536994778	0.8861199120364597	0.9115614700655531	0.9340388702250889	0.9531553700796056	0.9686647716842953	0.980530317809841	0.9889643088636932	0.9944274357976808	0.9975713547557816	0.9991250984016097	0.9997547363893732	0.999950959665173	0.9999938691742143	0.9999995959435504	1	1	1	1	1	1	1";
"0.008122139234456401	0.008641831437151689	0.00919477347610821	0.009783093923022717	0.010409054011730513	0.011075062419665422	0.011783681702697639	0.012537633866951566	0.013339821159539852	0.01419332707434159	0.015101434316837782	0.016067632857495708	0.0170956372136644	0.018189399025652135	0.01935312023780785	0.02059127394512756	0.0219086139838063	0.02331020204814524	0.02480141843763538	0.026387987285086307	0.028075996929793044	0.02987192289483737	0.031782648298215734	0.033815499615112876	0.0359782615180875	0.0382792105277855	0.0407271516484911	0.04333144122584323	0.04610202128328386	0.04904946524222907	0.05218500294057243	0.05552056887370393	0.05906883529496657	0.06284326480188569	0.06685814981262386	0.07112866207850706	0.07567088834290811	0.0805019105778257	0.08563982572371044	0.0911038161189051	0.09691421795247458	0.10309246689424217	0.10966137551370406	0.11664495133306416	0.12406857738588277	0.13195901177456174	0.14034444522748507	0.14925452902077016	0.15872040235219084	0.16877467010368385	0.17945145403913892	0.19078632612143295	0.20281624421089714	0.21557949547715324	0.22911553919648286	0.24346483252485862	0.25866858620339683	0.27476841913872385	0.2918059520263707	0.3098222624437248	0.3288571658488695	0.3489484418644896	0.37013063249963496	0.39243386522177753	0.41588214190500744	0.4404914354720586	0.4662672565882629	0.49320190364208494	0.5212710474360636	0.5504298070521779	0.5806081794633131	0.6117058929873718	0.6435866906057346	0.6760722514543063	0.7089365110063932	0.7418979422135895	0.774619679996365	0.8067037938245507	0.8376966729674812	0.8670984479079192	0.8943826293301707	0.919027658546937	0.9405622313099951	0.9586208262799147	0.9730106478410475	0.9837654581109793	0.9911789837087953	0.9957888588049961	0.9982990329928852	0.9994485372729157	0.9998669669158584	0.9999786777086686	0.999998075713139	0.9999996248679335	0.9999999969789577	1	1	1	1	1";
"0.007775755937463747	0.008273286050228298	0.00880264885016224	0.00936588121936583	0.009965147977130428	0.010602756141460116	0.011281157344909074	0.012002961426657981	0.012770943265396713	0.013588056485399779	0.014457443482773029	0.015382446761468044	0.01636662167896576	0.017413752130648663	0.01852786246342287	0.01971323310480167	0.020974419762676968	0.0223162650960568	0.0237439237324998	0.025262875880692173	0.026878953119362756	0.02859835477953836	0.030427675966191677	0.032373928578383206	0.03444457244233696	0.03664753710691176	0.03899125301506654	0.04148468138520345	0.044137355670566064	0.04695940201842876	0.04996158028618105	0.053155331270733464	0.056552802615248476	0.06016689968357761	0.06401132740085196	0.06810063377283442	0.07245026311143124	0.07707659718722233	0.08199701019202447	0.0872299222739011	0.09279484876382213	0.0987124603729975	0.10500462659909869	0.11169446862159649	0.11880643391740062	0.1263663110210034	0.13440129477506443	0.14294002299378203	0.15201258718618693	0.16165059764859144	0.1718871309252246	0.18275676383700284	0.1942955221809968	0.20654081262252147	0.2195313302215349	0.233306882873795	0.24790826890928466	0.263376919918844	0.27975459842612604	0.29708291801906694	0.31540278399106747	0.33475364378174016	0.3551725748358249	0.376693180124171	0.3993441384639702	0.4231475254914453	0.4481167671594472	0.47425405116178126	0.5015474628241817	0.5299673539165183	0.5594622670050206	0.5899541326846014	0.6213329075833538	0.653450851672295	0.6861159363157958	0.7190861459003118	0.7520638492829084	0.7846921720200513	0.816554536146264	0.8471794007720552	0.876052512702114	0.9026398667714196	0.9264232952316308	0.9469501935873685	0.9638947719834035	0.9771232480921026	0.9867482508154146	0.9931500580896172	0.9969429429160166	0.9988750710940582	0.9996805276300437	0.9999365688597792	0.9999924501117369	0.9999995478367194	0.9999999876092456	0.9999999946022387	1	1	1	1";
"0.007446909284336197	0.00792339960121179	0.00843037621278769	0.00896978960990297	0.009543715244754116	0.010154361093878758	0.01080407470187798	0.01149535619669454	0.01223086370155155	0.013013426439687455	0.01384605229886555	0.01473194461804783	0.015674508078678335	0.016677366467056656	0.017744374491796163	0.01887963286250571	0.02008750423547459	0.021372629210829684	0.022739942693788255	0.024194698989943003	0.025742476130437935	0.0273892212976016	0.029141247546210922	0.031005275587234954	0.03298845158086926	0.03509837267788629	0.037343119067047965	0.039731278786706146	0.042271993231252365	0.044974944955141094	0.04785047502205477	0.05090953888856549	0.05416378581362969	0.057625591087761774	0.06130810170000336	0.06522527160836995	0.06939191872232285	0.07382376648351412	0.07853749734392804	0.08355080242248122	0.08888242204387048	0.0945522317680347	0.10058125710996223	0.10699175575854818	0.1138072669671399	0.1210526004828644	0.12875403179119727	0.13693916159684877	0.14563711101439797	0.1548784351948545	0.1646952152691465	0.1751210059955683	0.18619086607114416	0.19794127861453298	0.21041009867379865	0.22363642813977855	0.23766047570204932	0.2525233155888887	0.2682666136645918	0.2849322362928462	0.3025617808785654	0.3211959241740578	0.34087366576408146	0.36163133704315387	0.38350143433529593	0.4065110771138171	0.4306802438468818	0.45601952706268695	0.4825275590285341	0.5101878245714382	0.5389649338601504	0.5688003217015605	0.5996072104838955	0.6312651371688266	0.6636137765535114	0.696446721960719	0.729505271235899	0.7624733927342161	0.7949745405630678	0.8265723358310173	0.8567770602277541	0.8850607130520352	0.9108835133562573	0.9337342497661716	0.9531847906216095	0.9689555151904597	0.9809815631333904	0.9894623093741627	0.994869502778983	0.9978916946337375	0.9993098368490233	0.999834887011001	0.9999747612724702	0.9999980334499687	0.9999999423256682	1	1	1	1	1";
"0.0071348939396175745	0.007591420261591429	0.008077155886787339	0.00859397099712139	0.009143851699536156	0.009728913880689617	0.010351408673759221	0.011013728930725162	0.011718423964005138	0.01246820305619997	0.013265949635199338	0.01411473101816777	0.015017811324741738	0.015978661982592377	0.01700097757545693	0.01808868678864825	0.01924597093199956	0.020477272740666762	0.021787327012502865	0.02318116288348869	0.024664134449932953	0.026241932132440294	0.02792061285116921	0.02970661680454474	0.03160678983535953	0.03362841523420143	0.03577924095021947	0.038067496261915294	0.04050194038509327	0.043091877421942294	0.04584720168488391	0.04877842715402826	0.05189672756579681	0.05521397195864827	0.05874277230609718	0.062496521126729467	0.0664894362800718	0.07073661445774806	0.0752540747239449	0.08005880689907821	0.0851688251773108	0.09060322655376817	0.09638223730325154	0.10252726402420625	0.10906095942837032	0.11600726600532069	0.12339146289754818	0.13124023879476754	0.139581671434313	0.14844532105807662	0.15786227070890252	0.1678650824859346	0.17848779107638352	0.18976595389306453	0.20173652438908604	0.21443781209883658	0.2279093421925625	0.24219169129204632	0.2573262320618688	0.27335484021481005	0.29031947341182973	0.3082616563915459	0.32722179738490104	0.3472383795651796	0.368346886436094	0.39057858442385834	0.4139588718318356	0.43850540111307645	0.46422572929429884	0.49111455134821974	0.5191503730166317	0.5482915743529752	0.5784718740938509	0.6095951263745685	0.6415295388854291	0.6741013809086619	0.7070886458184943	0.7402149072367625	0.7731445299407924	0.8054802742863006	0.8367651753467353	0.8664912864719999	0.8941175593278756	0.9191008009650509	0.940940921207263	0.9592408926312528	0.9737760804262835	0.9845606120472059	0.9918896271734896	0.9963303130329701	0.9986403134230039	0.9996173841909607	0.9999273639108314	0.9999923142012468	0.9999996303355709	0.9999999804200544	0.9999999896404143	1	1	1";
"0.006839031427861218	0.007276627725738119	0.007742222730483592	0.008237607796762992	0.0087646883170749	0.009325491341215315	0.009922175487544881	0.010557034572866919	0.01123251145162619	0.011951204602368695	0.01271587534649567	0.013529467015820033	0.014395107163203188	0.015316123977263979	0.016296058713749912	0.01733867781348678	0.01844798844256246	0.019628253799593424	0.020884009349560487	0.022220078216926734	0.02364159141464378	0.025154007344700906	0.026763131969689467	0.028475139800171276	0.0302965958372764	0.0322344846066641	0.03429623602642303	0.03648974316521247	0.03882340324185292	0.04130614381704213	0.043947454836733645	0.04675742174648062	0.04974676501292468	0.05292687535062559	0.056309855959519976	0.059908561156786395	0.06373664192364056	0.06780859251243149	0.0721398018512494	0.07674658761230226	0.08164626829141469	0.08685720007477472	0.09239883354990013	0.09829179279998199	0.10455781424814146	0.1112200344755387	0.1183027958375368	0.12583183832081057	0.13383428763639427	0.14233872954439405	0.15137522280364113	0.16097532511328116	0.17117210638437444	0.18200012882584762	0.19349543647519835	0.20569547850353675	0.21863902071947758	0.23236601631185202	0.24691740987234095	0.2623348686370065	0.27866046468796535	0.2959362125954784	0.31420352659069806	0.3335024793519898	0.35387097143975343	0.37534351772870983	0.3979500210363004	0.4217139666715965	0.4466504669148119	0.4727637284441053	0.50004416090012	0.5284648316598107	0.5579773408040222	0.5885070341197978	0.6199475680483605	0.6521549107803224	0.6849408693919541	0.7180670394090725	0.7512366942356392	0.784094635528385	0.8162213155282213	0.8471385372912216	0.8763198903497121	0.9032125617528772	0.9272727809467665	0.9480172075823365	0.965086812434723	0.9783235025791355	0.9878316299073453	0.9940115190427001	0.9975281554018856	0.9991987816436758	0.9998159632798433	0.9999747239253015	0.9999984705113815	0.9999999857371367	1	1	1	1";
"0.006558669244030212	0.006978327216696557	0.007424836372383218	0.007899914001729638	0.00840538815920747	0.008943203421173463	0.009515429215202148	0.010124264711518111	0.01077205375772758	0.011461287422631144	0.012194616419753125	0.012974861034129417	0.013805021417263363	0.014688290083126072	0.015628063232750285	0.01662795267585769	0.017691802845293165	0.01882370234916002	0.020028000040983387	0.021309324300214556	0.022672595394031887	0.024123049926507996	0.02566625551300336	0.027308136700152384	0.029054992226436822	0.0309135216692201	0.03289085104716357	0.03499455636842746	0.03723269555004706	0.03961383170102094	0.042147073296060746	0.04484210114169575	0.047709204587836854	0.05075931764243579	0.054004058301693844	0.057455771384089645	0.061127569058843416	0.06503337049636326	0.06918796136450642	0.07360702541065575	0.07830720752603909	0.08330616028858184	0.08862259365698583	0.09427633286260267	0.10028837792834129	0.10668093793214391	0.11347750834467346	0.1207029136225721	0.1283833484510661	0.1365464342231099	0.14522124927837488	0.15443836387737253	0.16422985054096487	0.17462930646643185	0.1856718238184951	0.19739395830562084	0.2098336630087796	0.22303018363123428	0.23702387232219382	0.25185606610209843	0.2675687191976142	0.28420406971743667	0.301804160635226	0.3204102504880061	0.3400620250152391	0.3607966550889988	0.38264764622762454	0.40564331585794955	0.4298050567476757	0.4551451686710074	0.4816641756656149	0.5093477961139746	0.5381631396445526	0.568054400599101	0.5989377921580582	0.6306958441283547	0.6631713322853804	0.6961602554108391	0.7294056628561983	0.7625916726482612	0.795339468560469	0.827206912357275	0.8576936957088022	0.8862551891815007	0.9123283614816958	0.9353725561482178	0.9549270445857135	0.9706827140174491	0.9825583890529873	0.9907626113720662	0.9958103737591258	0.9984638412262784	0.999583729920974	0.9999281314619253	0.9999939408776387	0.9999996284986145	1	1	1	1";
"0.006293178677092269	0.00669584988312565	0.0071242851144324125	0.007580132686304463	0.008065147252579041	0.008581193460005188	0.00913025699410273	0.0097144500652164	0.010336020139170801	0.010997356912653808	0.011701005486380632	0.012449670741961223	0.013246233766820433	0.014093754756616056	0.01499549547818277	0.015954921295479037	0.016975719885974554	0.018061816671639388	0.019217384638657974	0.020446864241320833	0.021754979577555136	0.023146753758869425	0.024627533637583483	0.026203000940607034	0.02787920466158204	0.029662574602685236	0.031559949874316734	0.03357860355015593	0.03572627051780737	0.03801117211906749	0.04044205429658547	0.04302821910450784	0.04577952270808155	0.04870649167664531	0.051820277277842636	0.05513273717063801	0.05865646549858795	0.062404845992486	0.06639208007828425	0.07063325183952227	0.07514436414236338	0.07994239713793676	0.08504535419335968	0.09047231369179505	0.09624350086713439	0.10238031469864545	0.10890540689217942	0.11584273177813824	0.1232175366920073	0.13105655650601283	0.13938787584614615	0.14824112123284544	0.15764737476854215	0.1676392684566304	0.17825092893416558	0.18951799217927323	0.20147754714436777	0.21416807250272216	0.2276292676001247	0.24190196402421046	0.2570278203351166	0.27304908234884423	0.29000813659617863	0.30794702446081035	0.32690679211267176	0.34692663934074397	0.36804295632104433	0.39028802341543034	0.4136884579969171	0.4382633065306935	0.4640217147681043	0.49096020606606033	0.5190593009758979	0.5482795820087938	0.5785571231521388	0.6097981245823757	0.6418730522766659	0.6746100334507494	0.707788142015116	0.7411306839799107	0.7742996810279975	0.8068925023667248	0.8384425623317064	0.8684267760239075	0.8962827160146669	0.9214392754744818	0.9433638122199689	0.9616268168081249	0.9759800632155318	0.9864355244349057	0.9933203826801414	0.9972730000294066	0.9991467952460932	0.999820461021696	0.9999800676416236	0.9999995279642476	1	1	1	1";
"0.00604194351290675	0.006428539966592892	0.00683987215647309	0.007277522420298991	0.007743174808907544	0.008238620414814789	0.008765766849115961	0.009326639769772336	0.009923397591273427	0.010558336126891785	0.011233896455500294	0.011952678361571685	0.012717445771125244	0.013531139191474842	0.014396888252295174	0.01531802172142152	0.01629807999363126	0.017340831525763847	0.018450284105051732	0.019630703540412058	0.02088661861525056	0.02222286064022285	0.023644560171805627	0.025157176035457245	0.026766513891215992	0.028478751870416763	0.030300456185912688	0.032238614105013115	0.034300651859172276	0.036494471281926184	0.03882846913240942	0.04131157585964176	0.04395328467597572	0.046763685088219646	0.049753502896440045	0.05293413193995978	0.05631768282949792	0.059917015316112016	0.06374579005268019	0.06781850883991872	0.07215057034892224	0.07675831248414636	0.08165906140060711	0.0868711872184775	0.09241417361780434	0.09830863866964586	0.10457642313092891	0.11124061774421078	0.1183256421114504	0.12585727254385112	0.13386271800150246	0.1423706040793413	0.15141105587041342	0.16101577202949455	0.1712179161322045	0.18205217837632245	0.1935547729653881	0.2057633250197024	0.21871683937401312	0.23245551760933586	0.24702061715175855	0.26245416508224345	0.27879866249768254	0.29609662540802545	0.3143900462372155	0.3337196851311263	0.3541242019336748	0.37563904687737637	0.39829514307050706	0.4221171723682207	0.44712156694659516	0.473314023817601	0.5006865659308138	0.5292140066753788	0.5588497406156584	0.5895208645828166	0.6211226410408492	0.6535122070945909	0.6865017964643828	0.7198518298828411	0.7532641976320766	0.7863770445167897	0.8187621041172908	0.8499270028738743	0.8793253221299501	0.9063775519174402	0.9305076287258722	0.9511972663116549	0.9680587543452275	0.9809198055106547	0.9899034919829557	0.9954720991242326	0.998393415348734	0.9995972991362843	0.9999417558390826	0.9999967418105247	0.9999999656752968	1	1	1";
"0.005804377214163499	0.006175773056897954	0.006570932176623275	0.006991375137291251	0.007438719346490597	0.007914685752253386	0.008421105838487625	0.00895992733370461	0.009533222700874271	0.01014319833488063	0.01079219948020864	0.011482722859941813	0.012217425399738677	0.012999130154321708	0.0138308444874313	0.014715767075050006	0.01565730061827816	0.01665906361206156	0.01772490776701707	0.018858928664459457	0.02006548531217211	0.021349213633042086	0.02271504367344758	0.02416822231039469	0.025714327754450254	0.02735929601624868	0.029109439022441258	0.03097146925660267	0.032952524440559613	0.0350602018358678	0.03730256934376323	0.039688210592819885	0.04222625373183391	0.044926397561116965	0.04779895449730051	0.05085488237797659	0.05410582436905592	0.05756415438135328	0.06124301184358167	0.06515635170120462	0.06931898851861294	0.07374665529454767	0.07845602923682846	0.08346481518996525	0.08879177389470722	0.09445678508860138	0.10048093250450672	0.10688642774003713	0.1136969173152377	0.12093728098727959	0.12863381352634817	0.13681423985039481	0.14550775837162708	0.15474508005159876	0.16455843240362955	0.1749815873693941	0.1860498290672906	0.19779994366574824	0.21027013832469565	0.22349993940270033	0.2375300609108489	0.2524021981639055	0.2681587476891393	0.2848424345770396	0.30249586573270926	0.32116094944439005	0.3408780798837963	0.3616852763074709	0.3836169072970338	0.4067023582377499	0.4309641140625393	0.4564157062045383	0.48305896625292727	0.510880942740673	0.5398501010004805	0.5699118551577942	0.6009834425851986	0.632947981572117	0.6656479545680039	0.6988781390304569	0.732378915716276	0.7658274861164611	0.7988373641888767	0.830952347135919	0.8616528832742255	0.8903686718083542	0.9165046673116511	0.9394841130167272	0.9588114933047797	0.9741544719007863	0.9854354953096882	0.9929102028157951	0.9971930524647047	0.9991815058914476	0.9998526548242783	0.9999884048407026	0.9999997409060299	0.999999932931093	1	1";
"0.005579902148054209	0.005936935323969765	0.006316813295030103	0.006720996815416912	0.007151041290328341	0.007608601664243578	0.00809543750071813	0.0086134224056049	0.00916454854707792	0.009750936817729924	0.010374841133320867	0.011038663057684774	0.011744955263636937	0.012496434027759386	0.013295989992760698	0.014146696704612192	0.015051826437073465	0.0160148585528375	0.01703949573086075	0.018129676315362366	0.019289589900393627	0.020523693841758336	0.02183673100433154	0.02323374298293663	0.024720096202064137	0.02630149561971983	0.027984013223046313	0.029774102949914748	0.03167862958016781	0.03370489707114352	0.03586066767936589	0.03815419877181344	0.04059426596252663	0.04319020262340306	0.04595192851422059	0.0488899879602251	0.05201558442953868	0.05534062518759685	0.058877757496870416	0.06264041765180191	0.06664287130713317	0.07090026584636436	0.07542867397607066	0.08024514785250729	0.08536777496393887	0.09081572993036233	0.09660932138523959	0.10277006241993682	0.10932070950514797	0.116285328776073	0.12368935160273449	0.13155960417607268	0.13992437601433427	0.14881344521624976	0.15825810700176507	0.1682912001013381	0.17894709876008025	0.1902617114005743	0.20227241692526576	0.21501801824305455	0.22853860586962246	0.24287537648186058	0.2580704900866896	0.27416667421024604	0.29120688625226004	0.30923378706009425	0.32828911093535335	0.34841283497174597	0.36964215921727683	0.39201027978072345	0.41554477441709176	0.4402656900114075	0.4661832640379378	0.4932950108502251	0.5215824269708107	0.5510069078984524	0.5815050165867728	0.6129830051202779	0.6453105094576421	0.6783139262138044	0.7117686051961927	0.7453920323208549	0.7788370949143458	0.8116877461944162	0.8434587199145336	0.8736018388637135	0.9015229510179178	0.9266137294366641	0.948302750313173	0.9661284622172422	0.9798315023631614	0.9894525128321218	0.9954049326589787	0.9984712394460122	0.9996633302363237	0.999965174650314	0.9999991459882578	1	1	1";
"0.005367955209813705	0.0057114270750710655	0.00607687577215077	0.00646570797350399	0.006879418429237168	0.007319599104340007	0.007787943996178457	0.008286255597545223	0.008816449240106841	0.009380565523289312	0.00998077436468915	0.010619384702444811	0.01129885211491152	0.012021791498126851	0.012790981799660183	0.013609383219837817	0.014480138599290109	0.015406600530198515	0.016392329209063673	0.017441113504416135	0.018556986111490655	0.019744234056846884	0.021007419614087437	0.0223513972140356	0.023781327314740218	0.02530270402012183	0.026921361430983313	0.02864351760865103	0.030475778055481764	0.03242516965383679	0.03449916354826359	0.03670570727266185	0.0390532482728984	0.04155077011857168	0.0442078315774385	0.047034558722029746	0.05004176403190328	0.05324090719401203	0.056644167233125015	0.060264487102556205	0.06411561352462476	0.06821213659536285	0.07256955195854978	0.07720430235003785	0.08213382895227107	0.08737662659853251	0.09295229134437365	0.09888159779423777	0.10518653135100298	0.11189034844023488	0.11901765939993834	0.12659438142625995	0.13464797459775843	0.14320726896380406	0.15230267238635242	0.1619660952746438	0.17223100905959585	0.18313242606327973	0.19470688852586873	0.206992406795539	0.2200283975009341	0.2338554947042936	0.24851545712009143	0.2640508436399374	0.28050472801530385	0.29792025465160427	0.31634010677719565	0.3358057715788004	0.3563566833547011	0.37802912651981796	0.4008548717758614	0.4248594782178409	0.4500602225801688	0.4764635977536057	0.5040623076709716	0.5328315561395668	0.5627249531161276	0.593669062395394	0.6255578874235078	0.6582462072234818	0.6915422190820414	0.7252000609172328	0.7589122596238891	0.7923035883655749	0.8249272584804097	0.8562662899624444	0.8857426218320332	0.9127388101763688	0.936636868559379	0.9568790630141268	0.9730528330465548	0.9849945812892137	0.9928926168756285	0.9973468277972742	0.999318425602322	0.9999078987271567	0.9999965009577492	1	1	1";
"0.0051679877066905175	0.005498665137301669	0.005850500399531874	0.006224847821371111	0.006623147540850561	0.007046931670008823	0.00749783053747105	0.007977579475606789	0.008488023579085135	0.009031127731959918	0.009608979777648236	0.010223803001059493	0.010877962321262197	0.01157397368344053	0.012314514857539241	0.013102433640443667	0.013940759331747545	0.014832716783081845	0.015781734867462167	0.01679146240735527	0.017865780265915423	0.01900881805597497	0.020224970684353378	0.021518906492780113	0.022895599240374126	0.02436033665325068	0.025918742639672643	0.027576798957384387	0.029340869284069142	0.031217720141847323	0.0332145495186049	0.0353390089745568	0.03759923808896587	0.0400038876256424	0.04256216071812143	0.04528383545994036	0.04817930882465471	0.05125962565138526	0.054536532742354996	0.05802249774180058	0.06173077324119166	0.06567543512459635	0.06987141702583649	0.07433458647223729	0.07908176935552526	0.08413081925214659	0.08950065577844354	0.0952113509609585	0.10128413559567596	0.10774150536391769	0.11460724424203762	0.12190649786371227	0.12966580286828414	0.13791317593842667	0.146678084488004	0.15599153355731774	0.16588612947628964	0.17639599894908858	0.18755680660771942	0.1994057694914679	0.21198154886067677	0.2253241733285141	0.23947488194193875	0.2544759393615842	0.2703703439067024	0.287201482798613	0.30501266029119406	0.3238464955928898	0.3437441668275706	0.3647444412817689	0.386882503435204	0.41018848728473745	0.4346856126878825	0.4603880119207146	0.4872979622201913	0.5154026882693361	0.544670413989778	0.5750457519676877	0.6064442582454117	0.6387462296511542	0.6717896761814274	0.7053626881265664	0.7391956081461774	0.7729534281681935	0.8062299288819493	0.8385448558752737	0.8693472488546151	0.8980282923714802	0.9239486322263781	0.9464860999919793	0.9651083432015306	0.9794718893789626	0.9895387438889491	0.9956815965089201	0.9987179192763114	0.9997836737790017	0.9999879744242973	0.9999999627173556	1	1";
"0.004979463428977882	0.005298078346325926	0.00563707957793721	0.005997771233830998	0.0063815414730895815	0.0067898669372224805	0.007224318534687276	0.007686567706060512	0.008178392621954784	0.008701685968449679	0.009258460250376709	0.009850857019718225	0.010481156098657012	0.011151781020009348	0.01186531184040526	0.01262449353358993	0.013432243255888978	0.014291669934054691	0.015206076516883958	0.016178980399830623	0.01721412062461546	0.018315477790999256	0.01948728281307541	0.020734040072114168	0.022060539926569755	0.02347187718390483	0.02497347320482949	0.026571092365970123	0.02827086773492388	0.03007932206815564	0.03200339106737611	0.034050451066557824	0.036228350644906884	0.03854542864637688	0.041010552722420365	0.04363315549903355	0.046423258964818616	0.04939151836356039	0.05254925490718924	0.05590850351397043	0.05948204268769361	0.06328345563486722	0.0673271548374541	0.07162845313400117	0.07620359896385584	0.08106983032375596	0.08624543215578288	0.09174978428989662	0.09760343428580197	0.10382814854151401	0.11044687672630629	0.11748403953365584	0.12496532861044332	0.13291790025938888	0.1413703743142438	0.15035289268273574	0.1598971451133189	0.17003638582351602	0.1808054421787095	0.19224069088464044	0.20438002830315233	0.21726280164718517	0.23092967234338554	0.24542247789874888	0.2607840136718295	0.2770576948223094	0.29428720860512897	0.3125159485083555	0.3317864256455894	0.3521393669206644	0.37361276563651213	0.39624047224831205	0.4200507177846423	0.44506405146924555	0.47129097580766893	0.4987289887315541	0.5273590987799837	0.5571415833199074	0.5880110164317918	0.6198704508892368	0.6525847347948763	0.685973105357194	0.7198011382221439	0.753773044147432	0.7875218986269549	0.8206086603143319	0.8525162212127153	0.8826575505242964	0.9103925135824975	0.9350627533093749	0.9560500076877516	0.9728634685108892	0.9852558985884654	0.9933541662606598	0.9977613021171261	0.999541504843199	0.9999645776659232	0.9999997400213322	0.9999999935677415	1";
"0.0048018588707274415	0.005109109602185287	0.005436019509580591	0.005783846590896784	0.006153929424553286	0.006547691755130038	0.006966648101929128	0.007412410555795229	0.007886694797119526	0.00839132438240318	0.008928241427544876	0.009499511427363277	0.010107332119497365	0.0107540397239266	0.011442124203674246	0.01217423123098583	0.012953176532621472	0.013781955750641983	0.014663756061080899	0.015601968485732365	0.016600198757037284	0.017662285508668902	0.018792311829023897	0.019994620310774588	0.021273831144690104	0.02263485819811221	0.02408292979948867	0.02562360845005519	0.027262807475009223	0.029006819207393505	0.030862334812435565	0.03283647157090561	0.03493679543274502	0.037171357145766554	0.03954871291800667	0.042077959173375874	0.04476877055488943	0.047631430865200525	0.050676865996749684	0.0539166898255578	0.057363244837122684	0.06102964060635085	0.06492980011365758	0.06907850950040435	0.07349146962399537	0.07818533663283397	0.0831777844905091	0.08848755765476733	0.09413452100735188	0.10013972642469632	0.10652545600824638	0.11331529386738785	0.12053416697351398	0.1282084193977051	0.13636583254063575	0.14503570474092728	0.15424885545766007	0.16403767590744545	0.17443614063524157	0.18547980083035132	0.19720576885998847	0.20965265843194478	0.22286050986303443	0.23687066246093638	0.251725533567105	0.2674684551766591	0.28414325747864283	0.3017938649566794	0.32046373100324427	0.340195141800123	0.36102828133044523	0.38300010765215675	0.4061429882623565	0.4304828819504964	0.45603724673844565	0.48281243979136523	0.5108004558284274	0.5399752454323186	0.5702880443352187	0.6016620382354237	0.6339861099153089	0.6671076317217588	0.7008248107095199	0.7348777677942583	0.7689405953084921	0.8026137164805648	0.8354190978663941	0.8668006230494113	0.8961331931509733	0.9227459066483512	0.9459660742920171	0.9651910605014314	0.9799940414352964	0.9902610220523961	0.9963366414207924	0.999111676133253	0.9999086218179187	0.9999988633020419	0.9999999975958646	1";
"0.009984958808765853	0.010541795179190745	0.011129682240843992	0.011750351897465339	0.01240563177367466	0.013097450398866922	0.0138278454177022	0.014598966858528977	0.015413084978061608	0.016272595781025585	0.0171800291845781	0.018138056287752547	0.019149494751313334	0.020217322177741016	0.02134467826927579	0.02253488139399408	0.02379142887672541	0.02511801709889187	0.026518544501052652	0.02799712881929345	0.029558113135419263	0.031206080958588494	0.03294587321190733	0.034782593157305065	0.03672163425693157	0.03876867962741712	0.040929724642478085	0.04321110535388122	0.045619495278715005	0.04816194261525875	0.050845876413378156	0.05367912808009524	0.0566699666073061	0.05982710387986204	0.06315972728808979	0.06667751701201469	0.0703906780805063	0.07430995824187703	0.0784466876833745	0.08281278926846744	0.08742082165253572	0.09228399008882036	0.09741620637754182	0.10283207808803908	0.10854697303862992	0.11457703179164751	0.12093918881526841	0.12765122259486833	0.1347317669581793	0.14220033845968255	0.15007731869828012	0.15838408011241667	0.16714286643089324	0.1763768773284499	0.18611024410288632	0.19636801583185431	0.20717613538379023	0.218561385438243	0.23055136159279188	0.24317434994818005	0.2564592317716843	0.2704353508731854	0.28513230745196305	0.3005797357952757	0.3168070112403504	0.33384287531237267	0.3517150227424399	0.3704495097554946	0.3900701333870159	0.4105976346663283	0.43204870962796044	0.45443486041362097	0.47776107727408196	0.5020241060304782	0.5272106244176065	0.5532949954505376	0.580236660185416	0.607976903633247	0.6364357648951701	0.6655079682999151	0.6950587869427267	0.7249195167616116	0.7548829616240107	0.7846990747252428	0.8140715196199145	0.8426557383265757	0.8700599999231247	0.8958508513934178	0.9195654366191437	0.9407336991858027	0.9589136131724567	0.9737430404892076	0.9850099054508331	0.9927381941106608	0.9972752004596749	0.9993389140649481	0.9999316934499054	0.9999991320411645	0.9999999774501475	1";
"0.009646101372669701	0.010184041814039398	0.010751980321620887	0.011351589069345707	0.011984632592701638	0.012652977238300332	0.013358588723445001	0.014103546009197079	0.014890042426958926	0.015720390342706832	0.016597037337066363	0.017522561658544693	0.018499687705452576	0.019531291263808842	0.02062040633466895	0.021770236559312137	0.022984165479669996	0.0242657626725186	0.025618794932564564	0.027047240759010195	0.02855529656013891	0.030147395246766757	0.0318282098001997	0.03360267732390834	0.03547600453549749	0.037453688621559705	0.0395415255086786	0.04174563333055606	0.044072470824918136	0.04652885313600097	0.049121941286908596	0.051859336222318704	0.05474901980528802	0.05779942083867075	0.061019423574827265	0.06441839511861393	0.06800620698439219	0.0717932626865437	0.07579052625473034	0.08000954141323892	0.08446246563326032	0.08916210166585707	0.0941219136892029	0.0993560760768133	0.10487947679148542	0.1107077806951946	0.11685742636829598	0.12334567563966843	0.13019063745875947	0.13741128205433217	0.14502748116651412	0.15306003057211418	0.16153059442933884	0.17046187026193693	0.17987743706775458	0.18980182523297884	0.20026050638547582	0.21127976612958294	0.2228868522735323	0.23510970963193054	0.24797699509726587	0.26151793469889	0.27576215496412076	0.2907395117424275	0.3064798008080412	0.32301248460305193	0.34036627554867926	0.35856867630719313	0.3776453878186931	0.39761961242364124	0.4185112267854143	0.4403356968575428	0.4631028922140028	0.4868156418121688	0.5114679304955049	0.5370429196891163	0.5635105332047357	0.5908246560007819	0.6189199316067139	0.6477081127736287	0.6770739675060121	0.7068709122451317	0.7369161395558422	0.7669860317177595	0.7968116744674567	0.8260754775353977	0.8544097178100982	0.8813983632890704	0.9065841030684105	0.9294833954187546	0.9496128609974053	0.9665310829724026	0.979900237210246	0.9895705364371169	0.9956852824872998	0.9987857306763095	0.9998388957439713	0.9999966063421128	1	1";
"0.009327539623674209	0.009847715762780599	0.010396899688484241	0.010976708194241971	0.011588848636831144	0.012235123441224778	0.012917436501230664	0.013637795932042373	0.014398322560703189	0.015201255531695474	0.01604895876174588	0.016943926251327027	0.017888793869111463	0.01888634127759934	0.019939502816414826	0.021051378969285793	0.022225239330780563	0.023464536688714448	0.02477291520439149	0.026154221996004295	0.027612515994216352	0.029152084541619053	0.030777449556059655	0.03249338432325867	0.03430492684843785	0.036217391344952776	0.038236390890833555	0.040367843904077	0.04261799467907412	0.044993432963394045	0.04750111204629956	0.050148361263494055	0.052942917801978455	0.055892938282384744	0.05900701987569409	0.06229423810026787	0.0657641517401276	0.06942682846510896	0.07329289097212353	0.07737352857015604	0.08168052099634092	0.08622627575971908	0.0910238517221105	0.09608698678919825	0.10143014302665543	0.10706850867902493	0.11301805739051793	0.11929556095089229	0.12591861575342356	0.1329056823266893	0.14027610394469406	0.14805013245715593	0.156248931450922	0.16489462564230112	0.17401027096015045	0.18361989252972466	0.19374843627997004	0.2044217763065806	0.21566669732488136	0.2275107963984809	0.23998243628358887	0.25311065895602275	0.2669250326242705	0.28145549147470905	0.29673211522531684	0.3127848756140444	0.3296432709200118	0.3473359568115133	0.3658901749321116	0.38533118628727364	0.4056814773933394	0.4269598826871713	0.4491804793314966	0.47235121226586985	0.4964724511510843	0.521534974967385	0.5475179236468388	0.5743861778328384	0.6020873583022999	0.6305484436841479	0.6596717889302186	0.6893310195482307	0.7193659915226672	0.749578101438503	0.7797252685169141	0.8095174907351765	0.8386135926614189	0.8666202761613542	0.8930949963425983	0.9175548213228021	0.9394949260903185	0.9584197244115361	0.9738930117850916	0.9856127268124618	0.993517175625559	0.9979231752153366	0.9996573059925524	0.9999887969774213	1	1";
"0.009028253890088055	0.00953174076166602	0.01006330499910585	0.0106245120872885	0.011217012660642806	0.011842553922313597	0.01250297704671852	0.01320022681557508	0.013936355645436098	0.014713531493715237	0.015534041324792686	0.01640030112393297	0.01731486053780067	0.018280411101225563	0.019299794824993013	0.020376010336720752	0.021512224700829696	0.02271177948514481	0.02397820425824987	0.025315220656234656	0.026726761537144494	0.028216974389355654	0.02979023822620695	0.0314511760577602	0.033204663916698324	0.03505585108899126	0.0370101693298601	0.039073347907181165	0.04125143964118031	0.04355082240751283	0.04597823201021954	0.04854076867491426	0.05124592736505248	0.05410160758230719	0.05711614449994649	0.060298323821990726	0.06365741494302112	0.0672031790775225	0.07094591164845919	0.07489646103873046	0.07906625006262481	0.0834673160707093	0.08811233151939872	0.09301462943012546	0.09818825034240171	0.10364794865563957	0.10940923821998073	0.1154884271513967	0.12190263270383954	0.128669836207558	0.13580882060722313	0.1433393708754583	0.15128212748136735	0.15965868025824043	0.1684915717931334	0.1778042956462281	0.1876213275125564	0.19796806328103944	0.20887083564021672	0.22035685635975374	0.23245417498872573	0.24519157012782422	0.25859847184863305	0.27270480722847523	0.28754080049985153	0.3031367685677849	0.319522808933066	0.336728458607721	0.35478221512064395	0.3737110091492606	0.39353953794082963	0.41428943260777373	0.43597831630999595	0.4586185987849301	0.4822160228098742	0.50676807384448	0.5322618771161314	0.5586719381675074	0.5859573540545426	0.6140585911949829	0.642893920126464	0.6723550413563879	0.7023026097497486	0.7325618187784483	0.7629157236253422	0.793102157607384	0.8228062199281674	0.8516619719740212	0.8792475437358404	0.9050915293167546	0.928683777457864	0.9494971444618557	0.967024983224543	0.9808415567804835	0.9906968560494503	0.996662313576622	0.9993338453836533	0.999968009976174	1	1";
"0.008747256806308841	0.009235073855879903	0.009750095332692528	0.010293836197147663	0.01086789904113488	0.011473972551196223	0.012113843561208771	0.012789395183564745	0.013502617098190716	0.014255608163581866	0.015050586663217501	0.01588989159332725	0.01677599487957894	0.017711503682294575	0.018699171655204856	0.0197419051841729	0.020842772304404806	0.022005013515845485	0.02323204275145635	0.024527473313620242	0.02589511304215852	0.02733898311949654	0.028863326491818088	0.030472622633906127	0.03217159835524396	0.033965243014043946	0.03585882191503041	0.03785789154067269	0.039968312886978254	0.042196275974894816	0.04454830323887368	0.0470312850613815	0.049652484023968824	0.052419561842425	0.055340601971008305	0.058424127109710004	0.06167912366179218	0.06511506635555177	0.06874194272858651	0.07257027583307428	0.07661115944963262	0.08087627883057728	0.0853779343842438	0.09012908582937836	0.09514336302710745	0.10043511175721749	0.10601942085784753	0.11191216974377807	0.1181299417501079	0.12469030707104291	0.1316116091335902	0.13891302795779273	0.1466147718076082	0.15473790546461483	0.16330446666501874	0.17233745123930194	0.18186083103128067	0.19189953149175706	0.2024794382145497	0.2136273505790832	0.2253709615116805	0.2377387678534457	0.2507599860502076	0.2644644415441558	0.2788824200579693	0.2940444405373906	0.30998103215699574	0.3267223948366084	0.344298031926749	0.3627362396464763	0.38206352081304745	0.4023038907400848	0.423477949338988	0.4456018325335966	0.4686860300161157	0.492733723635873	0.517739021912309	0.5436848480058645	0.570540369573036	0.5982580371873435	0.6267701428779512	0.6559849141869125	0.6857820455872377	0.7160078026891277	0.7464697582553528	0.7769313500977297	0.8071066409066324	0.8366559560589651	0.865183105176627	0.8922359078500111	0.9173116198386162	0.939870516028685	0.9593614384736296	0.9752663239199982	0.9871756107462137	0.9949199570695023	0.9988029306396985	0.9999197161480965	0.9999999626757383	1";
"0.008483593716419493	0.008956708072911695	0.009456206092723818	0.009983559278915572	0.010540319573673006	0.011128127208018977	0.011748713518228772	0.012403905043745361	0.01309563220938925	0.013825931888312912	0.014596952163387794	0.015410964670879674	0.01627036596107143	0.017177684665932235	0.018135592572857854	0.01914690784091141	0.020214607009704542	0.02134183076456379	0.022531896644934508	0.02378830462791726	0.025114749464335635	0.026515131177995886	0.027993567502728214	0.02955440297785879	0.03120222386696009	0.032941869827609375	0.034778449505900984	0.03671735501803058	0.03876426955511254	0.040925204848133334	0.043206488162440874	0.04561480468356428	0.04815720374005867	0.0508411217587928	0.05367440475246682	0.05666532649667119	0.05982261239950061	0.06315546036651117	0.06667357156546175	0.07038716997368064	0.07430702513861354	0.07844449258438357	0.08281153171522099	0.08742073382245064	0.09228535435869936	0.09741935273290711	0.10283739377628978	0.1085549256169203	0.11458815681135326	0.12095413765504863	0.12767075407041514	0.13475676290407942	0.14223183519046453	0.1501165778167934	0.15843250138248022	0.16720214434841252	0.17644897200065915	0.1861974561629304	0.19647301778783344	0.20730203909597575	0.21871183620208026	0.2307305659287897	0.24338721698764582	0.2567114535928855	0.2707334874205522	0.2854839767120077	0.30099371798365343	0.31729342371161745	0.33441336158403584	0.35238292951152017	0.37123013206055067	0.39098091552166964	0.41165843940834035	0.43328204874280973	0.4558661989939991	0.47941897949543777	0.503940706842172	0.5294214807179067	0.55583934943217	0.5831573237517884	0.6113202113650179	0.6402509316290388	0.6698462801491804	0.699972186333996	0.730458508395292	0.7610934208841866	0.7916178909720093	0.8217201484505189	0.8510315836147576	0.8791242885757231	0.9055123496321957	0.9296585170305239	0.950989783760727	0.9689261112345336	0.9829335674987006	0.9926271875087783	0.9979914243564991	0.9998197667552645	0.9999997827038727	1";
"0.008236343123865985	0.008695669680991742	0.00918061076327898	0.009692595587926858	0.010233130860487697	0.010803809012535703	0.011406309764022795	0.012042410209192217	0.012713979853007727	0.013422997892900612	0.014171552325565726	0.014961846999396797	0.015796207570396542	0.016677091276126058	0.017607090092862456	0.018588942599783047	0.019625536518588525	0.02071992341455705	0.021875323716307765	0.023095135135570193	0.02438294661866735	0.02574254542928645	0.027177928306943853	0.028693318622000114	0.03029316094242266	0.03198216447891606	0.033765286902724775	0.03564776385083973	0.03763512092991976	0.03973318780001142	0.04194811722491214	0.04428640079584233	0.04675488806284279	0.049360802727214374	0.052111767070539966	0.05501582495698249	0.05808144651406262	0.06131757969090336	0.06473365112495855	0.06833959786195724	0.07214589822098565	0.0761635871147845	0.08040430132141825	0.08488028454784788	0.0896044445223989	0.09459036020341847	0.0998523191518543	0.10540536064038177	0.11126528211773402	0.11744870432680043	0.12397306369023244	0.13085667002703458	0.13811873437643993	0.1457793707824436	0.1538596656014555	0.16238160967352278	0.17136824901907163	0.1808435527516402	0.19083251936276688	0.20136109551818407	0.2124561878539876	0.22414563259501402	0.23645810353036603	0.24942307438636757	0.2630706540027628	0.2774314886097743	0.2925365584148953	0.30841693217141114	0.32510346275919344	0.3426264196004419	0.3610150261214328	0.38029687035736487	0.40049720218567986	0.4216380964072157	0.44373742517203424	0.4668075744384315	0.49085392740044853	0.5158731603896789	0.5418509564694335	0.5687596246740186	0.5965550369009333	0.6251732308253921	0.654526319452965	0.6844980894423728	0.7149387900565293	0.7456597350193113	0.7764273364043491	0.8069573844885729	0.8369095988887388	0.8658834817673972	0.8934163180144797	0.9189848632787783	0.9420124799980765	0.9618847051155218	0.9779798599967088	0.9897359071697192	0.9968256459525542	0.9996328070586074	0.9999991626277733	1";
"0.008004619032983896	0.008451023234782869	0.008922321853416782	0.009419903106258544	0.009945232088280215	0.010499856451801721	0.01108540895487709	0.011703614331202353	0.01235629317634298	0.013045366680062093	0.013772865848220956	0.014540929779675933	0.015351822543369625	0.016207929484851117	0.01711177145932564	0.01806600948532572	0.01907345111833978	0.020137062512893628	0.021259972129218242	0.022445484748543663	0.023697086594644937	0.02501846063416826	0.026413491390578945	0.027886281472772608	0.02944115994057548	0.03108269569361699	0.03281571296663385	0.03464529945598151	0.03657682776350817	0.03861596495587728	0.04076869934309762	0.04304133661681166	0.045440537230149604	0.047973327366390206	0.05064712317932918	0.05346974360076409	0.05644943453207039	0.05959489167761164	0.06291529154988175	0.06642030228739841	0.07012012122464684	0.07402548991803964	0.07814773230350147	0.08249877867870346	0.08709119150413677	0.09193820054167193	0.09705373612093346	0.10245243850433551	0.10814973717702929	0.114161823800737	0.12050571945086079	0.12719931394124134	0.13426135069168277	0.14171151343348626	0.1495704107332835	0.15785961607660232	0.16660163627710342	0.17582005558750327	0.18553939075073433	0.1957851760007487	0.20658391382185978	0.21796306929181772	0.22995101456448738	0.24257695903708926	0.2558708638235574	0.26986330936940633	0.2845853498056722	0.3000682819292109	0.3163434118180489	0.3334416753734067	0.35139327891136435	0.370227149634843	0.389970323575335	0.4106471567395551	0.43227841393445	0.4548801447166244	0.47846225905354434	0.5030269395993914	0.5285666767790639	0.5550618820478127	0.5824782052573138	0.6107632923954744	0.6398430110878067	0.6696171708578625	0.6999546335631323	0.7306879612981609	0.7616075237889285	0.792455449714819	0.8229196690709718	0.8526284796740004	0.881146474464906	0.9079724638795102	0.9325404827158044	0.9542246054136913	0.9723500439682348	0.9862227690222931	0.9952389633548759	0.999312556234889	0.999996388749665	1";
"0.007787570338068838	0.008221871223150708	0.008680391068712367	0.009164480766573006	0.009675567018044288	0.010215153584250663	0.010784830527540423	0.011386274943248067	0.012021258951292501	0.012691651795707208	0.01339942664030363	0.014146668897533842	0.01493557870493361	0.015768478877565925	0.016647820076059455	0.017576191762486527	0.018556327260723208	0.019591109813829482	0.020683585304664336	0.02183696943166174	0.023054653802073586	0.02434022138960073	0.025697453288018902	0.027130341265719095	0.028643097403479464	0.030240168861253	0.03192624786913199	0.03370628796827717	0.03558551767099652	0.037569453687686674	0.03966391773697157	0.04187505456249232	0.044209346275459464	0.04667363145170144	0.0492751268785356	0.05202145702368193	0.05492062094682003	0.05798111944533255	0.06121187282038333	0.06462229928655307	0.06822233240188454	0.07202243996788453	0.07603365196016719	0.08026759359599095	0.08473651321005281	0.08945331103503854	0.0944315640449859	0.09968556973442892	0.10523036268808923	0.11108176103757963	0.11725638769730426	0.12377171206632888	0.13064606657858874	0.1378986956951522	0.14554976080264503	0.15362039257994559	0.16213268659514424	0.17110975168708042	0.18057563381017053	0.19055549436398703	0.2010754275374131	0.21216251418877957	0.2238448152680833	0.236151200257619	0.24911149013091968	0.26275612525803843	0.2771161528052823	0.29222300961492137	0.3081083056022104	0.3248035128650584	0.3423396018915091	0.36074660363448546	0.3800530196678031	0.4002851490719166	0.42146622452737215	0.44361538472611456	0.46674648036244143	0.49086648313345926	0.515973743983878	0.5420558351767257	0.5690870365480121	0.5970252225044698	0.6258085050458172	0.6553510857954739	0.6855386554424804	0.7162231469135603	0.7472171797670453	0.7782877111724933	0.8091499407003716	0.8394612504906743	0.8688156378460378	0.8967393107345668	0.9226873564523511	0.9460406828398176	0.9661015600238504	0.9820898106219724	0.9931786779264966	0.9988044313764031	0.999988678528619	1";
"0.007584387175550165	0.008007356701640959	0.00845391449863608	0.0089253751789866	0.009423126808106428	0.009948637741031916	0.010503452623786064	0.011089206638154436	0.011707625439988613	0.01236053019871421	0.013049842182400625	0.013777592301459227	0.014545923626338794	0.015357097271870807	0.016213502987971525	0.017117660248046684	0.018072231785079072	0.01908002700827007	0.02014401213927449	0.021267318008707646	0.022453249184192565	0.02370529739444702	0.025027142638314476	0.026422675264070494	0.027895996661370465	0.029451439497650892	0.03109357582079952	0.03282722989167305	0.03465749620487834	0.036589748592133514	0.03862965922720777	0.040783215463814346	0.0430567317042181	0.045456875750093315	0.047990674873329135	0.05066555099900155	0.053489331106068974	0.056470271093758066	0.05961707635162869	0.06293892791586607	0.06644550942891543	0.07014703019794634	0.07405424954440386	0.07817850386792154	0.08253174169622725	0.08712655305038416	0.09197618801499995	0.09709460931756071	0.10249649532261024	0.10819729511578381	0.11421326042979231	0.12056146107661857	0.12725983786330322	0.13432720998301592	0.14178333364681203	0.14964889726644384	0.15794557564157835	0.16669603163087662	0.17592393590997396	0.1856539734005322	0.19591185500270064	0.2067242983045245	0.2181189894523997	0.23012456077324664	0.2427705383134855	0.25608722124471345	0.27010558311892124	0.28485712123300866	0.3003736509134934	0.31668701767621704	0.3338288279310344	0.35182998374421154	0.37072020664012056	0.39052741467371965	0.411276924478953	0.43299059177162225	0.4556855415703258	0.47937294734845626	0.5040563032139456	0.5297293850084549	0.5563740453575525	0.5839572418563802	0.6124279471095423	0.641713212568465	0.6717138580343696	0.7022994978655417	0.7333029644566824	0.7645144600162583	0.7956751253913092	0.8264706996140313	0.8565253416077715	0.8853957671232527	0.9125651085156937	0.9374347869195216	0.959308914106225	0.9773632747463944	0.9906112798662577	0.9980508017880269	0.9999696416356973	1";
"0.00739428987646642	0.00780665900202265	0.008242024829224004	0.008701669179720739	0.009186946884755928	0.009699285996544843	0.010240196737092012	0.010811271024921706	0.011414191302214858	0.012050734131304532	0.012722771627219603	0.01343228470726031	0.014181361930406975	0.014972209481340423	0.015807155471373808	0.016688657618708108	0.017619311563509245	0.018601856193743774	0.019639184464261262	0.02073434938146911	0.02189057227394694	0.023111256782735505	0.02439999316618678	0.02576057311213514	0.027196998079079437	0.028713490916723167	0.030314511524522594	0.03200476371754436	0.03378921294066469	0.03567310606976823	0.03766197073789696	0.039761646289288216	0.04197829215152198	0.044318412258781165	0.046788863952485375	0.04939688439412419	0.0521501088385133	0.0550565927195042	0.05812482993097267	0.0613637829680742	0.06478289888671007	0.06839214226907807	0.07220201544406471	0.07622358988200434	0.0804685326764044	0.08494913571863712	0.08967834918971405	0.09466980502533968	0.0999378574817443	0.10549761239772419	0.11136495793922443	0.11755659623892074	0.12409007803246518	0.13098384583053518	0.1382572382550093	0.14593056869781815	0.1540250317341247	0.16256293447456135	0.17156751462863826	0.1810630585876528	0.19107487264102696	0.2016292967814938	0.21275367854299312	0.22447633604830367	0.23682651807696617	0.24983434282895428	0.263530664029441	0.2779469663827396	0.2931151673743683	0.3090674227406398	0.32583577810508074	0.3434518651333018	0.36194639495724623	0.3813486416219696	0.40168570623333855	0.42298168425675836	0.44525662621641865	0.46852526774459907	0.4927955450951886	0.5180667419228661	0.5443272950184737	0.5715522036779447	0.5997000421725	0.6287093100971367	0.6584943972331226	0.6889407482459289	0.7198999880701059	0.751183367896652	0.7825562498788502	0.8137320975443361	0.8443643404953182	0.8740416677775922	0.9022796834791305	0.9285097884900654	0.9520569077470087	0.9720892403042929	0.9875239740987356	0.9969958998903861	0.9999272855028002	1";
"0.0072165396103066465	0.007618996001002983	0.008043896872873036	0.00849249289550267	0.008966105451602811	0.009466129904620386	0.009994038057525212	0.010551386008896919	0.011139815378482448	0.011761057888645236	0.012416943202306427	0.013109403574476984	0.013840478086343169	0.014612318191187057	0.015427197637426183	0.01628751564918635	0.017195805058734314	0.018154739118744205	0.019167141390498684	0.020235990940855913	0.021364434765448928	0.02255579162218271	0.023813567587201406	0.02514146548872176	0.02654338557059988	0.028023456265988005	0.029586027032481026	0.031235692991470315	0.032977299210436684	0.03481596724606916	0.03675709524957009	0.03880638355111459	0.04096984630520682	0.04325383189634344	0.04566503813194206	0.04821053214275671	0.050897767735129024	0.05373461321669318	0.05672936737111463	0.059890777578295716	0.06322807987004977	0.06675100377545459	0.07046981482639936	0.07439533054914829	0.07853895248173337	0.08291270035704132	0.08752923080261382	0.09240187844643276	0.09754468253959961	0.10297242558227812	0.10870065185080667	0.11474571247747731	0.1211248062804317	0.12785602293095652	0.13495823653916958	0.1424514359365528	0.15035647756111245	0.1586951381755998	0.16749034705463245	0.17676597015817153	0.18654693196047184	0.19685919264385643	0.2077297472966077	0.21918660770441362	0.23125873502156602	0.24397602035417387	0.25736916478106275	0.27146959916087765	0.28630928641112396	0.3019205380410472	0.3183357870771914	0.3355872075454381	0.3537063385944379	0.3727235692892503	0.39266749257144584	0.41356415036044925	0.43543605668549906	0.45830106709075435	0.4821709818051936	0.5070497902784173	0.5329317924714624	0.5597990879660149	0.5876186853942481	0.6163393111397343	0.6458874457929092	0.6761629200531909	0.70703391828625	0.7383314667956127	0.769843461323922	0.8013084688607612	0.832409255817452	0.8627662047459098	0.8919293841836194	0.9193664489170038	0.9444367761782733	0.9663298771027455	0.9839257237881618	0.9955926666577455	0.9998432410147242	1";
"0.007050431637602121	0.007443625108377052	0.007858745725015848	0.008297016958638024	0.008759728879129982	0.009248244492344238	0.009764003235158499	0.010308523548055705	0.01088340951448771	0.011490354954988133	0.012131145657180709	0.012807669525832057	0.013521919025416974	0.014275997725017989	0.015072125068361104	0.01591264682784122	0.016800034854079913	0.017736903863983265	0.018726012099773644	0.019770269512981963	0.020872751043824793	0.02203670036924918	0.023265544261818833	0.02456289449272589	0.02593257227465138	0.027378603336227575	0.02890524185113049	0.030516974282167778	0.0322185431219048	0.03401494241593989	0.03591145593663111	0.03791365044749926	0.04002740708654553	0.04225892786236495	0.04461475725196956	0.04710180836172616	0.04972736413272682	0.05249911846804612	0.05542518083981922	0.05851410989409332	0.061774929112103846	0.06521715921956438	0.06885083667250352	0.0726865433933452	0.0767354331615474	0.08100926535186193	0.08552042837972837	0.09028196832968953	0.0953076374019904	0.10061189821189462	0.1062099867101731	0.11211792819364064	0.11835256119516711	0.1249316057573043	0.13187366092234143	0.139198254109739	0.1469258749551233	0.15507798200300904	0.16367705578497016	0.172746611629964	0.18231116233544123	0.1923963445281602	0.20302878740600072	0.21423617677876627	0.2260471974243988	0.2384914801250561	0.25159956292603325	0.265402744025974	0.2799329980257175	0.29522275488191396	0.31130464548783876	0.32821133668967234	0.3459750148783307	0.36462699164520507	0.3841971108674614	0.4047130659498595	0.42619949244632105	0.4486769221578622	0.4721604952415586	0.496658380915532	0.5221699695851505	0.5486835297331735	0.5761736540989402	0.6045980491023282	0.6338940176111476	0.6639742182410842	0.6947219703548926	0.7259860395378855	0.7575749701134332	0.7892511305976819	0.8207246067803772	0.8516467705170951	0.8816028334583649	0.9100998612317303	0.9365408106561902	0.9601580714855595	0.979844843925741	0.9938070223366383	0.9996916777705552	1";
"0.006895294816614167	0.007279837002089601	0.007685823543249394	0.008114451662454477	0.008566983079520479	0.009044750402187496	0.00954916122985932	0.010081701195420352	0.010643938816354734	0.01123753048496087	0.011864223507253349	0.012525863942956985	0.013224398957331225	0.013961889240836517	0.01474050276964457	0.015562533168445471	0.01643040206785918	0.017346663336148396	0.018314015051509137	0.019335304244255808	0.020413537939905805	0.02155188865361771	0.022753708157709815	0.024022531194904828	0.025362092117474425	0.026776330016146634	0.02826940697736067	0.029845711110346142	0.03150987950701057	0.03326680191830759	0.0351216417425466	0.037079850501285816	0.03914717519584821	0.041329688341257685	0.043633794133021875	0.04606625158988567	0.04863419186860687	0.05134513973622725	0.054207033057075894	0.05722824622270655	0.060417614591198994	0.06378445459793088	0.06733859140566809	0.07109038539287882	0.07505075886790222	0.07923122598277685	0.08364391967076532	0.08830162560176295	0.09321781000313685	0.09840665530518848	0.10388309269123164	0.10966283054830085	0.11576239565172414	0.12219916836444349	0.1289914003973741	0.13615827749529805	0.14371991598426764	0.15169742217565607	0.16011290723861935	0.16898950313877642	0.17835140699032245	0.1882238269624744	0.1986331064495342	0.2096065788045295	0.22117264606787976	0.23336068812744895	0.24620102185006484	0.2597248287533049	0.27396399781975717	0.28895101046098254	0.3047187170398093	0.32130006184233983	0.3387277720709769	0.3570339356313951	0.3762494424040031	0.39640336666265624	0.4175221729859924	0.43962871183398594	0.46274100312428845	0.4868707949249959	0.5120221173382359	0.538188517570295	0.5653512618866081	0.5934761201297135	0.6225099606272906	0.652376886130252	0.682973879628999	0.7141658047474085	0.7457799158811056	0.7776006039413836	0.8093634265104327	0.8407493771982074	0.8713781053937433	0.9007973323304072	0.9284588040943466	0.9536527295892862	0.9753253496510964	0.9916207773347889	0.9994400503515507	1";
"0.0067504956452482095	0.007126962660922989	0.007524424308667862	0.007944051679957575	0.008387080347287806	0.008854815642880596	0.009348635146816168	0.00986999282519655	0.010420424609800858	0.011001552255076527	0.011615086747522825	0.01226283501929346	0.012946704805055687	0.013668709670346151	0.014430976358212997	0.015235748966119055	0.016085398189622194	0.016982423692807985	0.017929468112360455	0.0189293191083915	0.01998492012275282	0.02109937809552253	0.022275973162104445	0.023518167415131873	0.02482961680216734	0.02621417982936771	0.02767592920657621	0.02921916363415727	0.03084842107002726	0.03256849258943246	0.03438443354058203	0.03630158067172223	0.03832556743802404	0.04046233150002679	0.042718152330926386	0.045099644125355796	0.04761379766261973	0.050267981760019315	0.053069966410548536	0.056027961355495544	0.05915061997046481	0.06244707231424079	0.065926942853935	0.06960038421271143	0.07347810374102476	0.07757138608943968	0.08189212554656272	0.0864528548836785	0.09126678636592117	0.09634782326592778	0.10171061817693665	0.10737058534902204	0.11334395026730708	0.11964776945776694	0.12629998590465416	0.13331943485802725	0.14072590189777515	0.14854014998524448	0.15678392177132497	0.16548001375161903	0.17465226114658555	0.18432556441960649	0.19452584868855388	0.2052802108342581	0.21661671305208516	0.22856449257184477	0.24115363995390865	0.2544151592227728	0.26838086661454424	0.28308322452389284	0.298555192933857	0.31482996794169255	0.33194069197673837	0.34992006459679964	0.3687998656908563	0.3886103477148866	0.40937951392828326	0.43113219626299154	0.45388898102230374	0.4776647977297474	0.5024673778824708	0.5282952850332623	0.5551355689148267	0.5829610691988109	0.6117272488521469	0.6413684422000192	0.6717937924677843	0.7028825937229594	0.7344792817927361	0.7663882805582038	0.7983687255424522	0.8301294444680579	0.8613230973841364	0.8915376890548745	0.9202760046874395	0.9468951875733292	0.9704238396938454	0.9890333669957398	0.9990521600900867	1";
"0.006615426799396931	0.0069843617666432815	0.007373870874384377	0.007785102210138779	0.008219267224345524	0.008677644091086211	0.0091615840623364	0.009672511072943172	0.010211930511858022	0.01078143134054213	0.011382691405313217	0.012017481241154433	0.012687669713407469	0.013395231108306324	0.014142248879790221	0.01493092335248442	0.015763575541206835	0.016642658810788743	0.017570760312970096	0.018550613418370714	0.01958510221082106	0.020677270895644938	0.021830336848301015	0.023047690675672125	0.02433291793034625	0.025689796887454167	0.027122321961838832	0.02863470729026659	0.030231398895418322	0.031917093403613844	0.03369674592173613	0.03557558837059099	0.0375591392238327	0.03965322742419144	0.04186400027234828	0.04419794912754817	0.04666192020130281	0.04926314215320309	0.052009236470912074	0.054908248103712275	0.05796866451988992	0.061199449542737275	0.0646100102894992	0.06821034122905234	0.0720109282179426	0.07602284691581737	0.08025776553612882	0.08472799013267827	0.0894464773992107	0.09442688469186396	0.09968359211196277	0.10523174263547502	0.11108727423944821	0.11726694743534387	0.12378838932966663	0.13067013948553613	0.13793164598461236	0.1455933444430281	0.15367664959693653	0.1622040169320648	0.1711989368756505	0.18068597786161986	0.1906907761301701	0.2012400852402386	0.21236163951036174	0.22408435551608313	0.23643808958649268	0.24945365727436922	0.26316276961777774	0.27759777724768886	0.292791768836512	0.30877808827946823	0.32559019538324213	0.34326129793086313	0.3618239025769461	0.38130926121412645	0.4017466998201526	0.42316274750962246	0.4455801864038041	0.469016700562746	0.4934834426912959	0.5189831446384442	0.5455080805404916	0.573037340817028	0.6015339519698778	0.6309414375125761	0.6611798152683829	0.6921413850140161	0.7236860359966073	0.7556364664473519	0.7877734722728242	0.819831569316616	0.851494606633671	0.8823894850410655	0.9120699200063034	0.9399645739008254	0.9652039881885383	0.9860597122798801	0.9984902468198696	1";
"0.0064895164936281	0.006851429079422371	0.007233525201185408	0.007636930229690073	0.008062832069571814	0.008512485265767637	0.008987214868831656	0.009488417885142176	0.01001757202740672	0.010576235720075083	0.011166052470616894	0.011788763109132534	0.01244619722834742	0.013140294189600535	0.013873096713484846	0.014646764267236928	0.015463572909294803	0.016325928413028695	0.017236371270870892	0.018197581711559194	0.019212388680565826	0.02028378016860773	0.021414911538383558	0.02260910822005874	0.023869888126458516	0.025200960636707022	0.026606241639109567	0.02808986696788221	0.029656198917718254	0.03130984664459699	0.03305566688846602	0.0348987983199009	0.03684465357695315	0.03889895221015988	0.041067729148794016	0.04335734933139562	0.04577453450553179	0.04832637689036173	0.05102036007433862	0.05386437509635959	0.056866756953835994	0.0600362885747929	0.06338224467089935	0.06691439534412662	0.07064305557294911	0.07457909681476503	0.07873397968064874	0.08311978906629777	0.08774925420677815	0.09263579571926271	0.09779354112111566	0.10323737125272611	0.10898296058753103	0.11504678984051867	0.12144620066233482	0.12819942158161102	0.13532561366609705	0.14284488425919342	0.15077834669486562	0.15914812098328857	0.16797738696102377	0.17729038401298758	0.18711244160952434	0.19746998803846555	0.2083905159202599	0.2199026365128309	0.2320359621002358	0.24482114219639245	0.25828970916479094	0.27247399520460974	0.2874070443293539	0.30312233462104216	0.319653571931389	0.33703435495878864	0.35529780542701456	0.3744760048653642	0.3945993989266897	0.4156960219614059	0.43779050849809753	0.46090296405935227	0.4850475052580514	0.5102306132595043	0.5364490475255086	0.5636874863505056	0.591915730553064	0.6210853585483339	0.651126232850332	0.6819422552470079	0.7134072530358869	0.7453604626016448	0.7776023334644523	0.8098913302855071	0.8419399589992173	0.8734119178626728	0.9039104341064992	0.9329364585716048	0.9597337161639459	0.9827292701809455	0.9977203383878275	1";
"0.006372218348514886	0.006727590273561684	0.007102780435057141	0.007498894049786854	0.007917098304657635	0.008358624513656454	0.008824774006575732	0.009316919273105623	0.009836509268664253	0.010385075969976131	0.010964234389830869	0.011575689277599202	0.012221242701405323	0.012902796190859616	0.013622356077382238	0.014382042340424664	0.015184090812395528	0.016030864587103223	0.016924855605736974	0.01786869846510873	0.018865170041831587	0.01991720478191531	0.021027899664300093	0.022200524361851885	0.023438528808598477	0.024745558408168073	0.026125458309567327	0.02758228933131315	0.029120337014487952	0.03074412499684476	0.03245842862568053	0.034268288258078344	0.03617902513808939	0.03819625325066166	0.040325897942821494	0.04257421960322632	0.04494781387529458	0.04745365006336063	0.050099073696373335	0.052891846916584974	0.05584015157909662	0.058952618839397085	0.06223835830675105	0.0657069788261114	0.06936860947874605	0.07323393792748403	0.07731422829588035	0.08162136042764605	0.0861678503415291	0.09096689325911685	0.09603238230878496	0.10137896678964353	0.10702205475974158	0.11297786324867466	0.11926347307584849	0.12589682606327854	0.13289679716194175	0.14028320615457737	0.14807684876574295	0.15629955858598069	0.16497419644752367	0.1741247231434207	0.18377609388455088	0.19395450750900933	0.204687169742242	0.21600240472993454	0.22792960350877564	0.24049919153429972	0.25374256439229526	0.2676919533055944	0.28238035665295613	0.2978413302878482	0.3141087561358027	0.3312165663287	0.3491983499456581	0.368086914954785	0.3879136569043818	0.40870787093326455	0.43049583583100953	0.45329973612534563	0.477136314039399	0.5020152968205378	0.5279374718611473	0.5548924160825943	0.5828558938071821	0.6117867147942405	0.6416235812142056	0.6722807063101112	0.7036444621876965	0.7355690282385738	0.767872833636239	0.8003357033872593	0.8326970716686283	0.8646546433354761	0.8958583079732436	0.9258802940615186	0.9540814956884164	0.9790825283395757	0.9967151292985051	1";
"0.006263017395979465	0.006612299422709183	0.0069810601041015745	0.007370385780407317	0.007781423766334273	0.008215384302243854	0.008673545324392268	0.009157256748173722	0.009667944186087298	0.010207111049361147	0.010776344956479793	0.011377323913767933	0.012011814984429787	0.012681690036553755	0.013388922386662356	0.014135592011284072	0.014923899084417323	0.015756165241220352	0.0166348412446596	0.01756251347424075	0.0185419157834757	0.019575929369904668	0.020667598611228598	0.021820137643726797	0.023036939742745143	0.024321585114800544	0.025677855398276283	0.027109741683369395	0.028621454384339082	0.03021744658205372	0.031902402312666264	0.033681286186677026	0.03555932388524188	0.037542036458008195	0.03963525196162021	0.04184511704126028	0.04417812431697313	0.04664112030533493	0.049241334610680164	0.051986391592632374	0.05488434101699626	0.057943672739741436	0.06117333856540133	0.06458279517676233	0.06818200359522696	0.07198147789522258	0.07599229948259623	0.08022615233770532	0.08469535871982226	0.08941290062121353	0.09439245564943266	0.09964843838267336	0.10519602190483608	0.11105118978361211	0.11723075426934948	0.12375240129138643	0.13063473183516253	0.13789727829244597	0.14556057144598963	0.15364617758656932	0.16217656350764	0.17117548209118463	0.18066766070566098	0.1906788609929723	0.20123611822943308	0.21236746977004486	0.22410207440740793	0.2364701499287173	0.24950290494446556	0.2632324797006869	0.27769180452468506	0.292914450662359	0.3089344429727355	0.3257859549332714	0.3435029868197179	0.36211891166381877	0.38166596069257136	0.4021745097912532	0.42367225379390794	0.44618318612731245	0.4697263603616734	0.49431435630727066	0.5199514911317129	0.5466317127770166	0.5743360841001593	0.6030298556177524	0.6326594006356361	0.6631484699590009	0.6943945535758416	0.7262653174465159	0.7585953485614653	0.7911841204960287	0.8237953388024365	0.856158180844366	0.8879662567966622	0.9188584664049328	0.9483133194453314	0.9751675564617003	0.995456771978616	1";
"0.006161424261205367	0.0065050404275770295	0.006867819520751343	0.007250830662001668	0.007655201604994464	0.008082122525681072	0.008532852200838761	0.009008718428124495	0.009511122121036017	0.01004154401102745	0.010601545481463283	0.0111927760693593	0.011816977365476185	0.012475988803153691	0.013171749840686644	0.013906310552388192	0.014681833550473426	0.015500602399952119	0.01636502916411871	0.017277659961416836	0.018241178934075584	0.019258427275317753	0.020332395834822325	0.02146624866885094	0.022663324046727645	0.02392714405547975	0.025261429003878243	0.02667010679232503	0.028157320106104975	0.029727446658859905	0.031385100516806076	0.03313516335824508	0.034982779950378115	0.03693337892066282	0.038992696510060765	0.041166783149558635	0.043462025485551614	0.0458851620196141	0.04844330858613877	0.05114396930544563	0.05399505949289619	0.0570049467527293	0.06018243655152092	0.06353683782191329	0.06707795710342938	0.0708161438934406	0.07476231114983126	0.07892796651499899	0.08332524081348726	0.08796692052134616	0.0928664812982867	0.09803812710599306	0.10349680631644026	0.10925826796609388	0.11533908949266838	0.12175671235694444	0.12852947757004501	0.13567666374083115	0.14321852435199892	0.15117632149218072	0.1595723491895915	0.1684299825696785	0.17777367684170386	0.1876289993753456	0.19802264539888675	0.20898243613057138	0.22053725783000497	0.23271715332053447	0.24555315381198756	0.25907725925179154	0.2733223242976429	0.288321920504578	0.3041101461824687	0.3207213618864667	0.33818990912117153	0.3565496592197173	0.3758334718552459	0.3960727222911912	0.4172963106037214	0.4395298194234582	0.46279429363623614	0.4871048293343281	0.5124688968648811	0.5388842535311075	0.5663366788723282	0.5947971905699608	0.6242190625389992	0.6545344108838754	0.6856508427906076	0.7174480556822882	0.7497752473706708	0.7824495838480077	0.815256909659938	0.8479549643156802	0.8802773952634773	0.911925740598268	0.9424913594693102	0.9710371502464124	0.9939386601145388	1";
"0.0060669719469372265	0.006405321116841391	0.0067625391537265165	0.00713967869532483	0.007537850910423592	0.007958228696488047	0.008402049052347918	0.008870621190522692	0.009365323422442548	0.009887614646123897	0.010439032916464624	0.011021201584876003	0.011635835460399145	0.012284745822563146	0.01296984297238221	0.013693145101276541	0.014456782481631533	0.01526300326535249	0.016114181064712487	0.017012826466342813	0.017961580530422294	0.018963239693694848	0.020020753636204418	0.021137233708562592	0.022315968629084172	0.02356042577502128	0.02487427091769149	0.02626136870431205	0.027725803303963115	0.029271882695710957	0.030904154847257823	0.03262742041782831	0.034446750284449844	0.03636749116671121	0.03839529316214872	0.04053611494718106	0.042796240445127025	0.045182316301334555	0.04770134471212528	0.05036072082954739	0.05316824515449546	0.056132153616690744	0.05926112304790382	0.06256432521022275	0.06605142494448138	0.06973261724763674	0.07361865748182934	0.0777208831153107	0.0820512561213104	0.08662237668994414	0.09144752973359951	0.09654071941484196	0.10191669032199813	0.1075909725919567	0.11357992350347779	0.11990074848884771	0.12657155127169936	0.13361136946550659	0.1410401947344102	0.14887903886859438	0.1571499362241789	0.1658759911207316	0.17508139710534276	0.18479146221507187	0.19503263247578684	0.20583246264644697	0.21721967315153895	0.22922401444025675	0.24187639351126572	0.2552086455609026	0.2692535440113685	0.28404462465753844	0.29961602419086075	0.3160022687576218	0.3332379307040206	0.3513572907855837	0.370393846239514	0.39037970356927154	0.41134485514672114	0.43331626023621583	0.4563167116376304	0.48036353654293273	0.5054669443539189	0.5316281291752708	0.5588370322121722	0.587069780064324	0.6162857938005001	0.6464247288921016	0.677403161071631	0.7091117083898901	0.7414126155025057	0.7741390614056921	0.8070968193634984	0.8400695213202145	0.8728271490501217	0.9051287936578531	0.9366717434869659	0.9667453514848398	0.9921649501867938	1";
"0.00597922096335145	0.00631267628132673	0.006664727849395092	0.007036412476684324	0.0074288260842356275	0.007843123479188243	0.008280525696820282	0.008742320109598068	0.009229868459224312	0.00974460597585301	0.010288049186771297	0.010861798355248817	0.011467544593407515	0.012107069686739786	0.012782258757444603	0.013495101411961587	0.014247696257832575	0.015042258830953364	0.015881130367464545	0.016766780096565098	0.017701816833698356	0.018688993020689604	0.019731217372752814	0.020831556498345984	0.02199325112267436	0.02321971961769202	0.024514574265724356	0.02588162459619605	0.02732489458192699	0.028848631681740056	0.030457319002122344	0.032155689536702295	0.03394873688579424	0.03584173660023925	0.03784025360834211	0.039950163182168714	0.042177665145882365	0.044529304307715005	0.047011989387891945	0.04963300379813358	0.0524000452158134	0.055321224059549326	0.05840511176776662	0.06166074046426553	0.06509763763894462	0.06872586330927824	0.07255602320465218	0.07659930334892623	0.08086749740797353	0.08537303466030999	0.09012902894333079	0.09514929328808147	0.10044837748022971	0.10604161531919361	0.11194514926717836	0.1181759736182547	0.12475196085855035	0.1316919238205451	0.1390156189219529	0.14674380495877515	0.15489828531940666	0.16350190316269592	0.172578607383685	0.18215345920854803	0.19225265563157365	0.20290352547371956	0.21413454697452097	0.22597532107263227	0.2384564759686597	0.2516097959346707	0.26546789100750084	0.2800642747736723	0.2954331002008495	0.3116089716500899	0.3286266881100126	0.34652085941224897	0.36532548102716544	0.385073339678182	0.4057953530961316	0.42751967210717406	0.4502706499585838	0.47406754013452884	0.4989229949396844	0.5248412298937076	0.5518159145630959	0.5798276923720181	0.6088415274389392	0.6388037393557623	0.6696390027188777	0.7012476297742983	0.7335037211961702	0.7662547660006715	0.7993244756871741	0.8325197765277672	0.8656434755122936	0.8985066414861202	0.9309045279339934	0.9623450910707144	0.9901501207931408	1";
"0.005897751351426226	0.00622666378285608	0.006573918907882068	0.006940539762945922	0.007327606168988884	0.007736258995941949	0.008167701520507905	0.008623204623759628	0.009104110071872324	0.009611834909183912	0.01014787411652014	0.010713806799718286	0.011311300307124518	0.011942113589838578	0.012608104468957411	0.013311235272017753	0.014053577589100825	0.01483731740388248	0.015664761603402282	0.016538348067061906	0.017460648302824698	0.018434379737399288	0.01946240761788213	0.020547761210539067	0.02169363464454214	0.02290340251613204	0.024180625577431888	0.025529061819975808	0.026952683780080533	0.028455675874718575	0.03004246611237616	0.0317177206228769	0.03348636774290729	0.035353609239389475	0.03732493763977263	0.03940614703546642	0.0416033579142059	0.04392302225051866	0.04637195754281279	0.04895735481565558	0.051686803827788	0.05456831396278006	0.05761033417883774	0.060821783077104244	0.06421206673720792	0.0677911068151406	0.07156937301689642	0.07555792268465476	0.0797683524824083	0.08421298466458713	0.08890474076929038	0.09385726566702672	0.09908493177727375	0.10460288332474688	0.11042706544487732	0.11657426799397261	0.12306215906927662	0.12990933040968944	0.13713532165269043	0.14476066042250577	0.1528069093531485	0.16129669641527944	0.1702537189008772	0.1797028111954614	0.18966993302730378	0.2001821938438881	0.2112678414475264	0.22295627943680082	0.2352780068514617	0.24826460826380842	0.2619485509780668	0.27636333976899746	0.2915431090628776	0.30752252256255436	0.3243365752383015	0.34202006053366096	0.36060746864330223	0.38013216451840154	0.40062585760350744	0.42211773100583716	0.44463350177632155	0.46819413926542	0.49281444874017305	0.5185013209182359	0.5452517213860042	0.5730503549710668	0.6018671176823939	0.6316542546385127	0.6623437267870597	0.6938445641111008	0.7260413866151367	0.7587946855485982	0.7919441623686395	0.825317701915431	0.8587473799735408	0.8920911011459463	0.9252328772463811	0.9578870527991493	0.9879171456884523	1";
"0.005822167583708147	0.006146864539165002	0.006489669312474765	0.006851592067566512	0.0072336982309659376	0.007637114232860367	0.008063027633355962	0.008512693753650309	0.008987436580594766	0.009488655128207605	0.010017825388528849	0.01057650577961722	0.011166342773219706	0.011789072566031254	0.012446530083583816	0.013140651983327168	0.013873481907508317	0.014647180103341753	0.015464022328971873	0.0163264156388152	0.01723689978523201	0.018198157032403992	0.019213015653356362	0.020284465294724132	0.021415661842358616	0.02260993281799168	0.023870797438266575	0.025201964714557795	0.02660735567133049	0.02809110298238621	0.029657576341131156	0.03131138397139685	0.03305739123945331	0.03490073495888523	0.03684683552981613	0.038901418251344876	0.04107052051763135	0.04336051851407621	0.045778141377959554	0.048330489404677955	0.051025058307133324	0.053869755054344784	0.05687292857259413	0.06004338201367139	0.06339040694099293	0.06692380737875998	0.07065391724707705	0.07459164686649233	0.07874849937970485	0.08313660019682051	0.08776873752063717	0.09265839209719862	0.09781976368022209	0.10326783119983346	0.10901834742680393	0.11508792011286997	0.12149401585540612	0.1282550251141059	0.13539028003316594	0.1429200990942226	0.15086582726158063	0.1592498609304493	0.1680956914038627	0.17742790976078118	0.18727227471650243	0.19765566190524353	0.2086061335451868	0.22015288318577458	0.23232623836940205	0.24515761369006034	0.25867942757035983	0.27292503644201244	0.28792855916883087	0.30372472766567904	0.32034861534431897	0.3378353173722064	0.35621961631618176	0.37553539351213827	0.39581502892615633	0.41708865031626935	0.43938314675061874	0.46272100272384803	0.4871189197818124	0.512586177135948	0.5391226680510205	0.5667167105076082	0.5953425838251336	0.6249578969445239	0.6555010821784933	0.6868889713277744	0.7190156965508722	0.7517532650199267	0.7849558689879258	0.8184699534221148	0.8521538088704044	0.8859069947448991	0.9196931635980963	0.9534173774788076	0.9854952242799147	1";
"0.005752093439263162	0.00607288213818547	0.0064115615867798405	0.006769128313623322	0.007146635987434729	0.007545196951131908	0.007965984351039908	0.008410238675169728	0.008879268542918192	0.00937445437678186	0.009897256368399446	0.010449213321281701	0.011031951781907686	0.011647188365229585	0.012296733662218005	0.012982502766720222	0.013706514438266447	0.014470901696978292	0.015277915040353331	0.016129932605225186	0.017029461821224487	0.017979152758913125	0.018981801717520518	0.020040361013029712	0.02115794815033972	0.02233785471746869	0.02358355185874104	0.02489870846876621	0.02628719598909294	0.027753100987200057	0.02930073817151491	0.03093466108367582	0.03265967921336902	0.03448086438827593	0.03640357635460451	0.03843346965841418	0.04057651211997989	0.04283900172388953	0.04522759218075039	0.04774929872728763	0.05041152261194917	0.05322209001960478	0.0561892397537104	0.05932168271901298	0.06262859499852427	0.06611966975831023	0.06980512606105445	0.0736957445592634	0.07780289470520783	0.08213857027448604	0.08671541569971938	0.09154675773380011	0.09664664535173831	0.10202988289762797	0.1077120659806084	0.11370962077637375	0.12003983420632032	0.12672090125752353	0.1337719622622645	0.14121314107888822	0.149065567104639	0.1573514412539548	0.16609403597152206	0.1753177443689132	0.18504810260666668	0.19531179201159993	0.20613666527828234	0.21755177289931749	0.2295871704712	0.24227421696473678	0.2556451880207047	0.2697333469282226	0.28457276248588614	0.3001981939503945	0.3166448135569478	0.33394790824980686	0.3521425290894947	0.3712630027586252	0.39134231036628414	0.4124113730920744	0.4344981100544844	0.4576263481581692	0.4818147902956406	0.5070738953938199	0.5334070837718006	0.5608056007299139	0.5892476457892313	0.6186956292352167	0.6490937304636993	0.6803658177706156	0.7124145354919886	0.7451222599466502	0.778356020656083	0.8119790360589505	0.8458726688184245	0.8799732289904751	0.9143153617258348	0.948977422615893	0.9829177937581361	1";
"0.005687171332905782	0.00600433995586548	0.006339196478152615	0.006692727706531075	0.0070659770433542214	0.007460037386912903	0.00787607587121522	0.008315316330696229	0.008779052507000456	0.00926865009568385	0.009785551993830808	0.010331280245986755	0.01090744185854908	0.011515734719422955	0.012157950746604048	0.0128359808699874	0.013551822636777006	0.014307584530410198	0.01510549047091749	0.015947893447046984	0.016837274423793323	0.017776249925223878	0.0187675860360806	0.019814203360847507	0.020919183380862016	0.022085778418265343	0.023317424206093375	0.02461774663164151	0.02599057453340232	0.027439947251672717	0.028970133454873787	0.03058563203989739	0.032291201722164445	0.034091860185556516	0.03599290014096564	0.03799992107441185	0.04011881450163177	0.042355818533068336	0.044717507042596895	0.04721081854693457	0.04984307926379031	0.05262201846327846	0.05555579246634947	0.05865301022942373	0.06192275534517877	0.06537460812232546	0.06901868248637091	0.07286564211560666	0.0769267339163976	0.08121382574627659	0.08573942455962444	0.09051672252744475	0.09555962205333209	0.10088277296800684	0.1065016147393723	0.1124324086817679	0.1186922710220263	0.12529921972021768	0.13227221869557784	0.13963119669177543	0.14739710290129857	0.15559193398773916	0.1642387709282024	0.17336179717813688	0.18298636301790613	0.19313900493105565	0.20384724337155619	0.2151400562270656	0.22704742337723705	0.23960035055707532	0.2528311237122902	0.2667728764943566	0.2814596546824232	0.29692619802177067	0.3132077390515162	0.3303397372920512	0.3483574671281127	0.3672956208043397	0.3871877150510571	0.4080653596871909	0.4299573896787776	0.45288880548850835	0.4768795035234019	0.5019427354114914	0.5280833276852182	0.5552956862606159	0.5835615517541833	0.612847609946784	0.6431032115084494	0.6742585587148853	0.7062238739703098	0.7388907637650542	0.7721378772565751	0.8058431990700324	0.8399086115608069	0.874302879302877	0.9091230321452249	0.9446029319765734	0.9802199685450496	1";
"0.005627066047994995	0.005940882930053856	0.006272200604504842	0.00662199568958874	0.006991297832921412	0.007381196227565063	0.0077928381914908395	0.008227436661134372	0.008686271899788626	0.009170696371398055	0.009682135792117678	0.010222096396168527	0.010792169733743855	0.011394034813191506	0.012029463882098426	0.012700329624407584	0.013408607432830887	0.014156382911723985	0.014945859586763968	0.0157793615472302	0.016659344937159627	0.01758840097954854	0.018569263861926876	0.01960482409462577	0.020698130860166437	0.021852403121977382	0.0230710388779853	0.024357629732324488	0.02571595703447872	0.02715002412277261	0.028664051131525835	0.030262494819931998	0.03195005883880314	0.03373170767228582	0.035612685305049095	0.03759852418519341	0.03969506387237747	0.041908471223103524	0.04424525259403066	0.04671227626286206	0.04931679000922768	0.05206644429001266	0.054969312692674785	0.058033916991594395	0.061269245423807135	0.06468478405686635	0.06829053506980531	0.07209706719407714	0.07611550861210253	0.08035760784078123	0.08483575040951095	0.08956299642680231	0.09455311501264423	0.09982061571188636	0.10538078743806419	0.11124974036864899	0.11744443151721867	0.12398272204485615	0.13088339447438008	0.13816620542401373	0.1458519328482686	0.15396238630731537	0.1625204609725174	0.17155016953849467	0.18107665797645622	0.1911262320401322	0.20172638254313002	0.21290578468495433	0.2246942414885022	0.23712275032978722	0.25022335249441136	0.264029150568353	0.2785740780030864	0.29389290906502846	0.3100209108426442	0.3269936416953434	0.34484661618233725	0.36361482867776634	0.3833322261695506	0.4040310365869083	0.4257409091257373	0.44848790923349396	0.47229316786824405	0.497171677158182	0.5231303404422288	0.5501661115825701	0.5782638690640183	0.6073941292991615	0.6375109226826774	0.6685500447736202	0.700428563498909	0.7330464538083434	0.7662925953591809	0.8000581176204143	0.8342631453080892	0.8689047444078422	0.9041347622469381	0.9403246521817901	0.9774374873673486	1";
"0.005571457410884852	0.005882172812148687	0.006210216141661348	0.00655655448937512	0.006922207817099137	0.007308252748863041	0.007715826720777556	0.008146131010508461	0.008600432334043886	0.009080068996262293	0.009586454672718887	0.010121080339172528	0.010685520547905485	0.01128143814219008	0.011910588717073909	0.012574825795448764	0.013276105761758127	0.014016493032329803	0.014798169223652869	0.015623436416458735	0.01649472538411295	0.017414603158123088	0.018385776973336966	0.019411107186519536	0.020493612386458495	0.021636484657305673	0.022843084390817787	0.02411696620072675	0.025461881475024168	0.02688178688842908	0.028380865052505148	0.029963527239584984	0.03163443074975536	0.03339849473576391	0.035260908275390766	0.03722715101584205	0.03930300647256375	0.041494580873570074	0.043808316167300645	0.04625101458043679	0.04882985590724221	0.05155241655479084	0.054426687424837465	0.05746111391562123	0.06066459340874202	0.06404652491019759	0.0676168213384669	0.07138593890397711	0.07536491280336427	0.0795653747256656	0.08399959719163436	0.08868052100548256	0.09362179186449797	0.09883778243091004	0.10434365165288666	0.1101553608904975	0.1162897263331827	0.12276445095931443	0.12959816425402168	0.13681045917244097	0.14442194494052435	0.15245425768553633	0.16093012924543904	0.16987339177207786	0.1793090112053409	0.1892631427399265	0.19976308668491727	0.21083735013997254	0.22251560878072366	0.2348286911868194	0.2478085504716859	0.2614881548839112	0.2759014526039118	0.29108308222838103	0.30706841998454715	0.3238931027465149	0.34159279907337536	0.36020278894579005	0.3797573836359685	0.40028937822455	0.4218290934052558	0.4444035127556654	0.46803502065859853	0.4927400149772439	0.5185272567463731	0.545396026078667	0.5733339781832277	0.6023150880409619	0.6322975364048361	0.6632222286631002	0.6950123037062005	0.7275752246594748	0.7608089886271036	0.7946165314648829	0.8289338673775387	0.8637830104898377	0.8993631063698956	0.9361674026883541	0.9746043476277008	1";
"0.0055200433558171	0.0058278915791989605	0.0061529083442058196	0.006496051081979272	0.006858329351570395	0.007240812341381312	0.007644625825826726	0.008070959096331078	0.00852106794391425	0.008996279154347024	0.009497991883965983	0.010027684765538626	0.010586916763581462	0.01117733594151206	0.011800681762392717	0.012458790013666031	0.013153598999403401	0.013887155537595015	0.01466162051775686	0.015479273836045906	0.016342523919224607	0.017253914900827866	0.018216130107880334	0.019232002766881053	0.02030452445257104	0.021436853915659006	0.022632324794375158	0.023894457832980165	0.025226969840646492	0.02663378273856357	0.02811903875524224	0.029687109085337105	0.03134260995291735	0.0330904139350271	0.03493566356002839	0.03688378723574603	0.038940518506773665	0.0411119044007063	0.043404329685541525	0.04582453861930058	0.0483796404562994	0.051077145740222187	0.05392497592948877	0.05693149545171065	0.06010553151741959	0.0634563869744824	0.06699389417840908	0.07072841235229678	0.07467088795419403	0.07883284804232328	0.08322645120812239	0.0878645356276008	0.09276062298008834	0.09792897906329862	0.10338462169078555	0.10914338225772566	0.11522194670554091	0.12163786940361504	0.1284096352690211	0.13555669109244436	0.14309947680883275	0.15105948752588613	0.15945927986823513	0.16832252566925776	0.17767384654510185	0.18753978899698268	0.19794694977003682	0.2089238437105919	0.2205000193650549	0.23270616522760348	0.24557411503576565	0.2591367435941843	0.27342791815490713	0.2884823143552873	0.3043352112410339	0.32102239262539234	0.33857964893794734	0.35704249960262363	0.3764456061345222	0.39682218332337177	0.4182032176085619	0.44061647884848765	0.4640854157367833	0.48862774309697843	0.5142538772854308	0.5409651337363176	0.5687517064358792	0.5975906475536454	0.6274438827090193	0.6582568302079925	0.689958182415906	0.7224620284017996	0.7556746066397529	0.7895092053426589	0.8239159760360609	0.8589385452700626	0.8948173859885508	0.9321512869342646	0.9717523032122606	1";
"0.005472539720644287	0.005777738754227076	0.0060999584181248	0.006440147718181738	0.006799309236170357	0.007178500826244111	0.007578838812725146	0.008001503710332853	0.008447740028062131	0.008918861815582952	0.00941625729696797	0.009941391721235598	0.010495812178990057	0.01108115100674833	0.011699132794496643	0.012351578633846382	0.013040409565839524	0.013767654751038362	0.014535456047173722	0.015346075815522523	0.016201898576260233	0.01710544801400454	0.018059385114595688	0.019066518352916395	0.020129814866800502	0.02125240388484224	0.02243759224338407	0.023688873425618148	0.025009922939374613	0.02640463840015564	0.027877122101477324	0.029431712074777964	0.031072981019541306	0.0328057598115625	0.03463515041635909	0.036566532552040634	0.03860559225693827	0.040758324545807155	0.043031062079841656	0.04543048705975524	0.04796365507112654	0.05063801167911872	0.053461407264978514	0.056442141067802036	0.059588961243382005	0.06291110319739028	0.06641831158109279	0.07012086320508289	0.07402960790257576	0.07815597833326682	0.08251205069960268	0.08711054265720433	0.09196487723004511	0.09708921563653018	0.1024984166331162	0.10820824031029197	0.11423521830141642	0.12059678398455947	0.1273112808097145	0.13439801546315688	0.1418772882592431	0.14977043919949348	0.1580998743952018	0.16688912470100123	0.17616283684144327	0.18594683893599886	0.19626813834957849	0.20715493321588915	0.2186366188211513	0.23074376907639213	0.2435080866011602	0.2569623703841365	0.27114039327318523	0.28607680736579333	0.3018069334172485	0.3183665908497921	0.3357916077542714	0.3541177830781442	0.37338006931323975	0.3936120612648693	0.4148453438799753	0.43710830099273995	0.46042541301366235	0.4848155386202523	0.5102905814546733	0.5368536789794903	0.564497292589368	0.5932012311725284	0.6229307958309814	0.6536354764417509	0.6852488801924461	0.7176911286823912	0.7508757594822207	0.7847252955609872	0.8192023207291635	0.8543693275697272	0.8905022772705093	0.928291670189871	0.9689101161551747	1";
""].

(** Tables/chimin.table 1-100. *)
Definition chimin_lines : list string := [
"5.000000000000005e-18";
"5.748784976988682e-18";
"6.609705742330147e-17";
"7.599555414764671e-17";
"8.737642000038419e-17";
"1.0046165012825234e-16";
"1.1550648500415796e-16";
"1.3280438914733428e-16";
"1.5269277544167071e-16";
"1.7555958671075646e-16";
"2.0185086292982803e-16";
"2.3207944168063924e-16";
"2.668349615603158e-16";
"3.0679536367065896e-16";
"3.527401155359325e-16";
"4.0556541539484385e-16";
"4.663016734416101e-16";
"5.36133611005162e-16";
"6.164233697210334e-16";
"7.087370814634028e-15";
"8.14875417310322e-15";
"9.369087114301921e-15";
"1.0772173450159427e-14";
"1.2385381779958563e-14";
"1.4240179342179017e-14";
"1.6372745814388645e-14";
"1.882467903396235e-14";
"2.164380640541532e-14";
"2.4885117821660584e-14";
"2.8611838296751115e-14";
"3.289666123287843e-14";
"3.7823166377731474e-14";
"4.348745013088919e-14";
"5.000000000000003e-14";
"5.74878497698868e-14";
"6.609705742330146e-13";
"7.599555414764669e-13";
"8.737642000038428e-13";
"1.0046165012825246e-12";
"1.1550648500415807e-12";
"1.3280438914733442e-12";
"1.5269277544167088e-12";
"1.7555958671075664e-12";
"2.018508629298278e-12";
"2.3207944168063927e-12";
"2.668349615603157e-12";
"3.0679536367065898e-12";
"3.5274011553593237e-12";
"4.055654153948439e-12";
"4.663016734416103e-12";
"5.361336110051618e-12";
"6.1642336972103326e-12";
"7.087370814634029e-11";
"8.148754173103228e-11";
"9.369087114301928e-11";
"1.077217345015943e-10";
"1.238538177995856e-10";
"1.4240179342179016e-10";
"1.6372745814388652e-10";
"1.8824679033962347e-10";
"2.1643806405415319e-10";
"2.488511782166058e-10";
"2.8611838296751113e-10";
"3.289666123287843e-10";
"3.782316637773148e-10";
"4.348745013088919e-10";
"5.000000000000002e-10";
"5.748784976988679e-10";
"6.609705742330145e-10";
"7.599555414764668e-10";
"8.73764200003842e-9";
"1.0046165012825233e-8";
"1.1550648500415795e-8";
"1.3280438914733451e-8";
"1.5269277544167097e-8";
"1.7555958671075678e-8";
"2.0185086292982796e-8";
"2.320794416806392e-8";
"2.668349615603157e-8";
"3.0679536367065895e-8";
"3.527401155359324e-8";
"4.0556541539484376e-8";
"4.663016734416101e-8";
"5.361336110051616e-8";
"6.164233697210331e-8";
"7.087370814634027e-8";
"8.14875417310322e-8";
"9.36908711430192e-8";
"1.0772173450159437e-7";
"1.2385381779958575e-7";
"1.424017934217903e-7";
"1.6372745814388664e-7";
"1.8824679033962364e-7";
"2.1643806405415316e-7";
"2.4885117821660575e-7";
"2.8611838296751113e-7";
"3.289666123287843e-7";
"3.782316637773147e-7";
"4.3487450130889195e-7";
"5.000000000000002e-7"].

(** Tables/pairprod.table 1-1302. *)
Definition pairprod_lines : list string := [
"1301";
"-5	-50";
"-4.99	-50";
"-4.98	-50";
"-4.97	-50";
"-4.96	-50";
"-4.95	-50";
"-4.94	-50";
"-4.93	-50";
"-4.92	-50";
"-4.91	-50";
"-4.9	-50";
"-4.89	-50";
"-4.88	-50";
"-4.87	-50";
"-4.86	-50";
"-4.85	-50";
"-4.84	-50";
"-4.83	-50";
"-4.82	-50";
"-4.81	-50";
"-4.8	-50";
"-4.79	-50";
"-4.78	-50";
"-4.77	-50";
"-4.76	-50";
"-4.75	-50";
"-4.74	-50";
"-4.73	-50";
"-4.72	-50";
"-4.71	-50";
"-4.7	-50";
"-4.69	-50";
"-4.68	-50";
"-4.67	-50";
"-4.66	-50";
"-4.65	-50";
"-4.64	-50";
"-4.63	-50";
"-4.62	-50";
"-4.61	-50";
"-4.6	-50";
"-4.59	-50";
"-4.58	-50";
"-4.57	-50";
"-4.56	-50";
"-4.55	-50";
"-4.54	-50";
"-4.53	-50";
"-4.52	-50";
"-4.51	-50";
"-4.5	-50";
"-4.49	-50";
"-4.48	-50";
"-4.47	-50";
"-4.46	-50";
"-4.45	-50";
"-4.44	-50";
"-4.43	-50";
"-4.42	-50";
"-4.41	-50";
"-4.4	-50";
"-4.39	-50";
"-4.38	-50";
"-4.37	-50";
"-4.36	-50";
"-4.35	-50";
"-4.34	-50";
"-4.33	-50";
"-4.32	-50";
"-4.31	-50";
"-4.3	-50";
"-4.29	-50";
"-4.28	-50";
"-4.27	-50";
"-4.26	-50";
"-4.25	-50";
"-4.24	-50";
"-4.23	-50";
"-4.22	-50";
"-4.21	-50";
"-4.2	-50";
"-4.19	-50";
"-4.18	-50";
"-4.17	-50";
"-4.16	-50";
"-4.15	-50";
"-4.14	-50";
"-4.13	-50";
"-4.12	-50";
"-4.11	-50";
"-4.1	-50";
"-4.09	-50";
"-4.08	-50";
"-4.07	-50";
"-4.06	-50";
"-4.05	-50";
"-4.04	-50";
"-4.03	-50";
"-4.02	-50";
"-4.01	-50";
"-4	-50";
"-3.99	-50";
"-3.98	-50";
"-3.97	-50";
"-3.96	-50";
"-3.95	-50";
"-3.94	-50";
"-3.93	-50";
"-3.92	-50";
"-3.91	-50";
"-3.9	-50";
"-3.89	-50";
"-3.88	-50";
"-3.87	-50";
"-3.86	-50";
"-3.85	-50";
"-3.84	-50";
"-3.83	-50";
"-3.82	-50";
"-3.81	-50";
"-3.8	-50";
"-3.79	-50";
"-3.78	-50";
"-3.77	-50";
"-3.76	-50";
"-3.75	-50";
"-3.74	-50";
"-3.73	-50";
"-3.72	-50";
"-3.71	-50";
"-3.7	-50";
"-3.69	-50";
"-3.68	-50";
"-3.67	-50";
"-3.66	-50";
"-3.65	-50";
"-3.64	-50";
"-3.63	-50";
"-3.62	-50";
"-3.61	-50";
"-3.6	-50";
"-3.59	-50";
"-3.58	-50";
"-3.57	-50";
"-3.56	-50";
"-3.55	-50";
"-3.54	-50";
"-3.53	-50";
"-3.52	-50";
"-3.51	-50";
"-3.5	-50";
"-3.49	-50";
"-3.48	-50";
"-3.47	-50";
"-3.46	-50";
"-3.45	-50";
"-3.44	-50";
"-3.43	-50";
"-3.42	-50";
"-3.41	-50";
"-3.4	-50";
"-3.39	-50";
"-3.38	-50";
"-3.37	-50";
"-3.36	-50";
"-3.35	-50";
"-3.34	-50";
"-3.33	-50";
"-3.32	-50";
"-3.31	-50";
"-3.3	-50";
"-3.29	-50";
"-3.28	-50";
"-3.27	-50";
"-3.26	-50";
"-3.25	-50";
"-3.24	-50";
"-3.23	-50";
"-3.22	-50";
"-3.21	-50";
"-3.2	-50";
"-3.19	-50";
"-3.18	-50";
"-3.17	-50";
"-3.16	-50";
"-3.15	-50";
"-3.14	-50";
"-3.13	-50";
"-3.12	-50";
"-3.11	-50";
"-3.1	-50";
"-3.09	-50";
"-3.08	-50";
"-3.07	-50";
"-3.06	-50";
"-3.05	-50";
"-3.04	-50";
"-3.03	-50";
"-3.02	-50";
"-3.01	-50";
"-3	-579.396551372654";
"-2.99	-566.215552263755";
"-2.98	-553.334589325153";
"-2.97	-540.746832899799";
"-2.96	-528.445608792618";
"-2.95	-516.424394731761";
"-2.94	-504.676816910415";
"-2.93	-493.19664660732";
"-2.92	-481.977796884224";
"-2.91	-471.014319358506";
"-2.9	-460.30040104926";
"-2.89	-449.830361295186";
"-2.88	-439.598648742618";
"-2.87	-429.599838402127";
"-2.86	-419.828628772122";
"-2.85	-410.279839027919";
"-2.84	-400.948406274803";
"-2.83	-391.829382863611";
"-2.82	-382.917933767428";
"-2.81	-374.209334017984";
"-2.8	-365.698966200421";
"-2.79	-357.382318005074";
"-2.78	-349.254979834986";
"-2.77	-341.312642467882";
"-2.76	-333.551094771359";
"-2.75	-325.966221470093";
"-2.74	-318.554000963861";
"-2.73	-311.31050319524";
"-2.72	-304.231887565833";
"-2.71	-297.314400899938";
"-2.7	-290.554375454559";
"-2.69	-283.948226974726";
"-2.68	-277.492452793073";
"-2.67	-271.183629972676";
"-2.66	-265.018413492168";
"-2.65	-258.993534472166";
"-2.64	-253.105798442065";
"-2.63	-247.352083646287";
"-2.62	-241.729339389088";
"-2.61	-236.234584417038";
"-2.6	-230.864905338319";
"-2.59	-225.617455078007";
"-2.58	-220.489451368516";
"-2.57	-215.478175274402";
"-2.56	-210.580969750747";
"-2.55	-205.795238234362";
"-2.54	-201.118443267048";
"-2.53	-196.548105150211";
"-2.52	-192.081800630085";
"-2.51	-187.717161612894";
"-2.5	-183.451873909259";
"-2.49	-179.283676007182";
"-2.48	-175.210357872962";
"-2.47	-171.229759779408";
"-2.46	-167.339771160722";
"-2.45	-163.538329493447";
"-2.44	-159.823419202894";
"-2.43	-156.193070594453";
"-2.42	-152.64535880924";
"-2.41	-149.178402803506";
"-2.4	-145.790364351287";
"-2.39	-142.479447069748";
"-2.38	-139.243895466723";
"-2.37	-136.081994009924";
"-2.36	-132.992066217345";
"-2.35	-129.972473768371";
"-2.34	-127.021615635117";
"-2.33	-124.137927233541";
"-2.32	-121.319879593882";
"-2.31	-118.56597854998";
"-2.3	-115.874763947051";
"-2.29	-113.244808867488";
"-2.28	-110.674718874298";
"-2.27	-108.163131271746";
"-2.26	-105.708714382842";
"-2.25	-103.310166843262";
"-2.24	-100.966216911352";
"-2.23	-98.675621793833";
"-2.22	-96.4371669868537";
"-2.21	-94.2496656320463";
"-2.2	-92.111957887237";
"-2.19	-90.022910311484";
"-2.18	-87.9814152641107";
"-2.17	-85.9863903174205";
"-2.16	-84.0367776827795";
"-2.15	-82.1315436497625";
"-2.14	-80.2696780380666";
"-2.13	-78.4501936618996";
"-2.12	-76.6721258065618";
"-2.11	-74.9345317169405";
"-2.1	-73.2364900976499";
"-2.09	-71.5771006245469";
"-2.08	-69.9554834673685";
"-2.07	-68.3707788232331";
"-2.06	-66.8221464607626";
"-2.05	-65.3087652745795";
"-2.04	-63.8298328499473";
"-2.03	-62.3845650373182";
"-2.02	-60.9721955365677";
"-2.01	-59.5919754906915";
"-2	-58.3304978978294";
"-1.99	-57.0124187493953";
"-1.98	-55.7243436943311";
"-1.97	-54.465589777692";
"-1.96	-53.2354895909662";
"-1.95	-52.0333909182048";
"-1.94	-50.8586563902073";
"-1.93	-49.710663146579";
"-1.92	-48.5888025054806";
"-1.91	-47.4924796408965";
"-1.9	-46.4211132672482";
"-1.89	-45.3741353311879";
"-1.88	-44.3509907104081";
"-1.87	-43.3511369193063";
"-1.86	-42.3740438213509";
"-1.85	-41.4191933479943";
"-1.84	-40.4860792239839";
"-1.83	-39.5742066989272";
"-1.82	-38.6830922849664";
"-1.81	-37.812263500425";
"-1.8	-36.9612586192898";
"-1.79	-36.1296264263958";
"-1.78	-35.3169259781835";
"-1.77	-34.522726368903";
"-1.76	-33.7466065021394";
"-1.75	-32.9881548675398";
"-1.74	-32.2469693226223";
"-1.73	-31.5226568795526";
"-1.72	-30.8148334967735";
"-1.71	-30.1231238753783";
"-1.7	-29.4471612601195";
"-1.69	-28.7865872449474";
"-1.68	-28.1410515829748";
"-1.67	-27.5102120007686";
"-1.66	-26.8937340168686";
"-1.65	-26.2912907644369";
"-1.64	-25.7025628179453";
"-1.63	-25.1272380238078";
"-1.62	-24.5650113348686";
"-1.61	-24.0155846486579";
"-1.6	-23.4786666493295";
"-1.59	-22.9539726531969";
"-1.58	-22.4412244577854";
"-1.57	-21.9401501943204";
"-1.56	-21.4504841835744";
"-1.55	-20.9719667949945";
"-1.54	-20.5043443090374";
"-1.53	-20.0473687826384";
"-1.52	-19.6007979177428";
"-1.51	-19.1643949328295";
"-1.5	-18.7379284373607";
"-1.49	-18.321172309088";
"-1.48	-17.9139055741533";
"-1.47	-17.5159122899177";
"-1.46	-17.1269814304584";
"-1.45	-16.7469067746726";
"-1.44	-16.375486796928";
"-1.43	-16.0125245602026";
"-1.42	-15.657827611658";
"-1.41	-15.3112078805889";
"-1.4	-14.9724815786962";
"-1.39	-14.6414691026305";
"-1.38	-14.317994938754";
"-1.37	-14.0018875700699";
"-1.36	-13.692979385272";
"-1.35	-13.3911065898629";
"-1.34	-13.0961091192966";
"-1.33	-12.8078305540986";
"-1.32	-12.5261180369173";
"-1.31	-12.2508221914642";
"-1.3	-11.9817970432998";
"-1.29	-11.7188999424214";
"-1.28	-11.4619914876147";
"-1.27	-11.2109354525262";
"-1.26	-10.9655987134193";
"-1.25	-10.725851178574";
"-1.24	-10.4915657192949";
"-1.23	-10.2626181024887";
"-1.22	-10.0388869247767";
"-1.21	-9.82025354810739";
"-1.2	-9.60660203683407";
"-1.19	-9.39781909622542";
"-1.18	-9.19379401237515";
"-1.17	-8.99441859347962";
"-1.16	-8.79958711245208";
"-1.15	-8.60919625084303";
"-1.14	-8.42314504403695";
"-1.13	-8.24133482769652";
"-1.12	-8.06366918542559";
"-1.11	-7.89005389762343";
"-1.1	-7.72039689150299";
"-1.09	-7.55460819224667";
"-1.08	-7.39259987527367";
"-1.07	-7.23428601959368";
"-1.06	-7.07958266222203";
"-1.05	-6.92840775363225";
"-1.04	-6.78068111422233";
"-1.03	-6.63632439177156";
"-1.02	-6.49526101986545";
"-1.01	-6.35741617726667";
"-1	-6.22271674821038";
"-0.99	-6.09109128360291";
"-0.98	-5.96246996310328";
"-0.97	-5.83678455806737";
"-0.96	-5.71396839533506";
"-0.95	-5.5939563218412";
"-0.94	-5.47668467003158";
"-0.93	-5.36209122406562";
"-0.92	-5.25011518678768";
"-0.91	-5.14069714744973";
"-0.9	-5.03377905016802";
"-0.89	-4.92930416309718";
"-0.88	-4.82721704830521";
"-0.87	-4.72746353233369";
"-0.86	-4.62999067742718";
"-0.85	-4.53474675341698";
"-0.84	-4.44168121024396";
"-0.83	-4.35074465110617";
"-0.82	-4.26188880621682";
"-0.81	-4.17506650715878";
"-0.8	-4.09023166182198";
"-0.79	-4.00733922991044";
"-0.78	-3.92634519900594";
"-0.77	-3.84720656117562";
"-0.76	-3.76988129011107";
"-0.75	-3.69432831878695";
"-0.74	-3.62050751762712";
"-0.73	-3.54837967316673";
"-0.72	-3.47790646719914";
"-0.71	-3.40905045639639";
"-0.7	-3.3417750523925";
"-0.69	-3.27604450231921";
"-0.68	-3.21182386978358";
"-0.67	-3.14907901627753";
"-0.66	-3.08777658300952";
"-0.65	-3.02788397314863";
"-0.64	-2.96936933447168";
"-0.63	-2.91220154240431";
"-0.62	-2.85635018344684";
"-0.61	-2.80178553897633";
"-0.6	-2.74847856941623";
"-0.59	-2.6964008987651";
"-0.58	-2.64552479947648";
"-0.57	-2.59582317768167";
"-0.56	-2.54726955874777";
"-0.55	-2.49983807316324";
"-0.54	-2.45350344274367";
"-0.53	-2.40824096715027";
"-0.52	-2.36402651071414";
"-0.51	-2.3208364895593";
"-0.5	-2.27864785901766";
"-0.49	-2.23743810132929";
"-0.48	-2.19718521362159";
"-0.47	-2.15786769616091";
"-0.46	-2.11946454087046";
"-0.45	-2.08195522010854";
"-0.44	-2.04531967570102";
"-0.43	-2.00953830822243";
"-0.42	-1.97459196652004";
"-0.41	-1.94046193747519";
"-0.4	-1.90712993599676";
"-0.39	-1.87457809524139";
"-0.38	-1.84278895705523";
"-0.37	-1.81174546263242";
"-0.36	-1.78143094338502";
"-0.35	-1.75182911202012";
"-0.34	-1.7229240538189";
"-0.33	-1.69470021811342";
"-0.32	-1.66714240995656";
"-0.31	-1.64023578198067";
"-0.3	-1.6139658264408";
"-0.29	-1.5883183674382";
"-0.28	-1.56327955332012";
"-0.27	-1.53883584925182";
"-0.26	-1.51497402995709";
"-0.25	-1.49168117262315";
"-0.24	-1.46894464996663";
"-0.23	-1.4467521234566";
"-0.22	-1.42509153669139";
"-0.21	-1.40395110892563";
"-0.2	-1.38331932874406";
"-0.19	-1.36318494787891";
"-0.18	-1.3435369751676";
"-0.17	-1.32436467064751";
"-0.16	-1.30565753978483";
"-0.15	-1.28740532783445";
"-0.14	-1.2695980143279";
"-0.13	-1.25222580768653";
"-0.12	-1.23527913995703";
"-0.11	-1.21874866166665";
"-0.1	-1.20262523679531";
"-0.09	-1.18689993786204";
"-0.08	-1.17156404112322";
"-0.07	-1.15660902187998";
"-0.06	-1.1420265498925";
"-0.05	-1.12780848489862";
"-0.04	-1.11394687223451";
"-0.03	-1.10043393855517";
"-0.02	-1.08726208765239";
"-0.01	-1.07442389636807";
"1.04083408558608E-16	-1.06191211060076";
"0.01	-1.0497196414033";
"0.02	-1.0378395611695";
"0.03	-1.02626509990796";
"0.04	-1.01498964160096";
"0.05	-1.00400672064657";
"0.06	-0.993310018382129";
"0.07	-0.982893359687254";
"0.08	-0.972750709664565";
"0.09	-0.962876170396427";
"0.1	-0.953263977775999";
"0.11	-0.943908498410906";
"0.12	-0.934804226597913";
"0.13	-0.925945781367018";
"0.14	-0.917327903593396";
"0.15	-0.90894545317568";
"0.16	-0.900793406279087";
"0.17	-0.892866852641927";
"0.18	-0.885160992944092";
"0.19	-0.877671136236107";
"0.2	-0.870392697427407";
"0.21	-0.863321194832493";
"0.22	-0.856452247773676";
"0.23	-0.849781574239121";
"0.24	-0.843304988594976";
"0.25	-0.837018399350335";
"0.26	-0.83091780697387";
"0.27	-0.824999301760953";
"0.28	-0.819259061750149";
"0.29	-0.81369335068793";
"0.3	-0.808298516040572";
"0.31	-0.803070987052128";
"0.32	-0.798007272847452";
"0.33	-0.793103960579262";
"0.34	-0.788357713618228";
"0.35	-0.783765269785134";
"0.36	-0.779323439624137";
"0.37	-0.77502910471621";
"0.38	-0.770879216031846";
"0.39	-0.766870792322139";
"0.4	-0.763000918547359";
"0.41	-0.75926674434219";
"0.42	-0.755665482516768";
"0.43	-0.752194407592721";
"0.44	-0.748850854373418";
"0.45	-0.745632216547629";
"0.46	-0.742535945325845";
"0.47	-0.739559548108512";
"0.48	-0.736700587185438";
"0.49	-0.733956678465674";
"0.5	-0.731325490237154";
"0.51	-0.728804741955433";
"0.52	-0.726392203060825";
"0.53	-0.72408569182332";
"0.54	-0.721883074214613";
"0.55	-0.71978226280664";
"0.56	-0.717781215696006";
"0.57	-0.715877935453687";
"0.58	-0.714070468099462";
"0.59	-0.712356902100467";
"0.6	-0.710735367393319";
"0.61	-0.709204034429289";
"0.62	-0.707761113241953";
"0.63	-0.706404852536828";
"0.64	-0.705133538802467";
"0.65	-0.703945495442512";
"0.66	-0.702839081928229";
"0.67	-0.701812692971041";
"0.68	-0.700864757714585";
"0.69	-0.699993738945849";
"0.7	-0.699198132324932";
"0.71	-0.698476465633004";
"0.72	-0.697827298038025";
"0.73	-0.697249219377817";
"0.74	-0.696740849460073";
"0.75	-0.696300837378913";
"0.76	-0.695927860847597";
"0.77	-0.695620625547004";
"0.78	-0.695377864489523";
"0.79	-0.695198337397969";
"0.8	-0.695080830099199";
"0.81	-0.695024153932049";
"0.82	-0.695027145169281";
"0.83	-0.695088664453184";
"0.84	-0.695207596244527";
"0.85	-0.695382848284532";
"0.86	-0.69561335106956";
"0.87	-0.695898057338223";
"0.88	-0.6962359415706";
"0.89	-0.696625999499291";
"0.9	-0.697067247632025";
"0.91	-0.697558722785525";
"0.92	-0.698099481630396";
"0.93	-0.698688600246742";
"0.94	-0.699325173690276";
"0.95	-0.700008315568652";
"0.96	-0.700737157627807";
"0.97	-0.701510849348033";
"0.98	-0.702328557549578";
"0.99	-0.703189466007535";
"1	-0.704092775075789";
"1.01	-0.705037701319824";
"1.02	-0.706023477158158";
"1.03	-0.707049350512208";
"1.04	-0.708114584464387";
"1.05	-0.709218456924218";
"1.06	-0.710360260302297";
"1.07	-0.711539301191891";
"1.08	-0.712754900058005";
"1.09	-0.71400639093373";
"1.1	-0.715293121123697";
"1.11	-0.716614450914473";
"1.12	-0.717969753291716";
"1.13	-0.719358413663945";
"1.14	-0.720779829592749";
"1.15	-0.722233410529296";
"1.16	-0.723718577556968";
"1.17	-0.725234763139997";
"1.18	-0.726781410877946";
"1.19	-0.728357975265889";
"1.2	-0.729963921460165";
"1.21	-0.73159872504956";
"1.22	-0.733261871831791";
"1.23	-0.734952857595171";
"1.24	-0.736671187905309";
"1.25	-0.738416377896747";
"1.26	-0.740187952069401";
"1.27	-0.741985444089698";
"1.28	-0.743808396596279";
"1.29	-0.745656361010187";
"1.3	-0.747528897349399";
"1.31	-0.749425574047622";
"1.32	-0.751345967777239";
"1.33	-0.753289663276305";
"1.34	-0.755256253179499";
"1.35	-0.757245337852932";
"1.36	-0.759256525232726";
"1.37	-0.76128943066726";
"1.38	-0.76334367676301";
"1.39	-0.765418893233886";
"1.4	-0.767514716753982";
"1.41	-0.769630790813667";
"1.42	-0.77176676557892";
"1.43	-0.77392229775385";
"1.44	-0.776097050446307";
"1.45	-0.77829069303652";
"1.46	-0.780502901048692";
"1.47	-0.78273335602547";
"1.48	-0.784981745405231";
"1.49	-0.787247762402106";
"1.5	-0.789531105888698";
"1.51	-0.791831480281396";
"1.52	-0.794148595428259";
"1.53	-0.796482166499379";
"1.54	-0.798831913879683";
"1.55	-0.801197563064111";
"1.56	-0.8035788445551";
"1.57	-0.80597549376235";
"1.58	-0.808387250904777";
"1.59	-0.81081386091464";
"1.6	-0.813255073343762";
"1.61	-0.815710642271813";
"1.62	-0.818180326216596";
"1.63	-0.820663888046292";
"1.64	-0.823161094893621";
"1.65	-0.825671718071863";
"1.66	-0.828195532992716";
"1.67	-0.830732319085919";
"1.68	-0.833281859720626";
"1.69	-0.83584394212847";
"1.7	-0.83841835732829";
"1.71	-0.841004900052474";
"1.72	-0.843603368674887";
"1.73	-0.846213565140338";
"1.74	-0.848835294895556";
"1.75	-0.851468366821646";
"1.76	-0.854112593167977";
"1.77	-0.856767789487473";
"1.78	-0.859433774573285";
"1.79	-0.862110370396799";
"1.8	-0.864797402046948";
"1.81	-0.867494697670818";
"1.82	-0.870202088415489";
"1.83	-0.872919408371105";
"1.84	-0.875646494515136";
"1.85	-0.878383186657803";
"1.86	-0.881129327388644";
"1.87	-0.883884762024193";
"1.88	-0.886649338556746";
"1.89	-0.889422907604185";
"1.9	-0.892205322360848";
"1.91	-0.894996438549407";
"1.92	-0.897796114373739";
"1.93	-0.900604210472771";
"1.94	-0.903420589875264";
"1.95	-0.906245117955525";
"1.96	-0.909077662390031";
"1.97	-0.911918093114925";
"1.98	-0.914766282284388";
"1.99	-0.917622104229848";
"2	-0.920485435420018";
"2.01	-0.923356154421744";
"2.02	-0.926234141861636";
"2.03	-0.929119280388481";
"2.04	-0.932011454636401";
"2.05	-0.934910551188751";
"2.06	-0.937816458542749";
"2.07	-0.940729067074795";
"2.08	-0.943648269006493";
"2.09	-0.946573958371344";
"2.1	-0.949506030982097";
"2.11	-0.952444384398748";
"2.12	-0.955388917897174";
"2.13	-0.958339532438373";
"2.14	-0.961296130638323";
"2.15	-0.964258616738423";
"2.16	-0.967226896576514";
"2.17	-0.970200877558466";
"2.18	-0.973180468630318";
"2.19	-0.976165580250964";
"2.2	-0.979156124365361";
"2.21	-0.98215201437826";
"2.22	-0.985153165128449";
"2.23	-0.988159492863478";
"2.24	-0.991170915214891";
"2.25	-0.994187351173913";
"2.26	-0.997208721067615";
"2.27	-1.00023494653553";
"2.28	-1.00326595050673";
"2.29	-1.00630165717728";
"2.3	-1.00934199198824";
"2.31	-1.01238688160393";
"2.32	-1.01543625389074";
"2.33	-1.01849003789628";
"2.34	-1.02154816382889";
"2.35	-1.02461056303763";
"2.36	-1.02767716799252";
"2.37	-1.03074791226529";
"2.38	-1.03382273051037";
"2.39	-1.03690155844629";
"2.4	-1.03998433283746";
"2.41	-1.04307099147617";
"2.42	-1.04616147316507";
"2.43	-1.04925571769988";
"2.44	-1.05235366585242";
"2.45	-1.05545525935402";
"2.46	-1.05856044087916";
"2.47	-1.06166915402946";
"2.48	-1.06478134331793";
"2.49	-1.06789695415353";
"2.5	-1.07101593282602";
"2.51	-1.07413822649102";
"2.52	-1.07726378315547";
"2.53	-1.0803925516632";
"2.54	-1.08352448168089";
"2.55	-1.08665952368419";
"2.56	-1.08979762894419";
"2.57	-1.09293874951401";
"2.58	-1.09608283821571";
"2.59	-1.09922984862748";
"2.6	-1.10237973507092";
"2.61	-1.10553245259867";
"2.62	-1.10868795698222";
"2.63	-1.11184620469993";
"2.64	-1.11500715292526";
"2.65	-1.11817075951523";
"2.66	-1.12133698299906";
"2.67	-1.12450578256704";
"2.68	-1.12767711805957";
"2.69	-1.13085094995639";
"2.7	-1.13402723936606";
"2.71	-1.13720594801552";
"2.72	-1.14038703823992";
"2.73	-1.14357047297259";
"2.74	-1.14675621573522";
"2.75	-1.14994423062814";
"2.76	-1.15313448232087";
"2.77	-1.15632693604274";
"2.78	-1.15952155757371";
"2.79	-1.16271831323538";
"2.8	-1.16591716988212";
"2.81	-1.16911809489235";
"2.82	-1.17232105615998";
"2.83	-1.17552602208603";
"2.84	-1.17873296157032";
"2.85	-1.18194184400338";
"2.86	-1.18515263925845";
"2.87	-1.18836531768364";
"2.88	-1.19157985009422";
"2.89	-1.19479620776502";
"2.9	-1.198014362423";
"2.91	-1.20123428623992";
"2.92	-1.20445595182514";
"2.93	-1.20767933221852";
"2.94	-1.21090440088352";
"2.95	-1.21413113170028";
"2.96	-1.21735949895896";
"2.97	-1.22058947735313";
"2.98	-1.22382104197322";
"2.99	-1.22705416830018";
"3	-1.23028883219917";
"3.01	-1.23352500991341";
"3.02	-1.23676267805809";
"3.03	-1.24000181361441";
"3.04	-1.24324239392368";
"3.05	-1.24648439668161";
"3.06	-1.24972779993258";
"3.07	-1.25297258206408";
"3.08	-1.25621872180122";
"3.09	-1.25946619820135";
"3.1	-1.26271499064871";
"3.11	-1.26596507884928";
"3.12	-1.26921644282559";
"3.13	-1.27246906291168";
"3.14	-1.27572291974819";
"3.15	-1.27897799427741";
"3.16	-1.28223426773853";
"3.17	-1.2854917216629";
"3.18	-1.28875033786938";
"3.19	-1.29201009845979";
"3.2	-1.29527098581442";
"3.21	-1.29853298258759";
"3.22	-1.30179607170333";
"3.23	-1.30506023635111";
"3.24	-1.30832545998159";
"3.25	-1.31159172630256";
"3.26	-1.31485901927482";
"3.27	-1.31812732310817";
"3.28	-1.32139662225752";
"3.29	-1.32466690141901";
"3.3	-1.32793814552617";
"3.31	-1.3312103397462";
"3.32	-1.33448346947628";
"3.33	-1.33775752033994";
"3.34	-1.34103247818351";
"3.35	-1.3443083290726";
"3.36	-1.34758505928864";
"3.37	-1.35086265532551";
"3.38	-1.35414110388616";
"3.39	-1.35742039187938";
"3.4	-1.36070050641652";
"3.41	-1.36398143480831";
"3.42	-1.36726316456177";
"3.43	-1.37054568337709";
"3.44	-1.37382897914463";
"3.45	-1.37711303994189";
"3.46	-1.38039785403066";
"3.47	-1.38368340985406";
"3.48	-1.38696969603372";
"3.49	-1.39025670136702";
"3.5	-1.39354441482428";
"3.51	-1.39683282554612";
"3.52	-1.40012192284075";
"3.53	-1.40341169618138";
"3.54	-1.40670213520361";
"3.55	-1.40999322970295";
"3.56	-1.41328496963225";
"3.57	-1.41657734509931";
"3.58	-1.41987034636443";
"3.59	-1.42316396383805";
"3.6	-1.42645818807838";
"3.61	-1.42975300978913";
"3.62	-1.43304841981722";
"3.63	-1.43634440915058";
"3.64	-1.43964096891592";
"3.65	-1.44293809037658";
"3.66	-1.44623576493042";
"3.67	-1.44953398410771";
"3.68	-1.4528327395691";
"3.69	-1.45613202310355";
"3.7	-1.45943182662636";
"3.71	-1.46273214217721";
"3.72	-1.46603296191824";
"3.73	-1.46933427813212";
"3.74	-1.47263608322018";
"3.75	-1.47593836970061";
"3.76	-1.4792411302066";
"3.77	-1.48254435748458";
"3.78	-1.48584804439246";
"3.79	-1.4891521838979";
"3.8	-1.49245676907662";
"3.81	-1.49576179311071";
"3.82	-1.49906724928699";
"3.83	-1.50237313099539";
"3.84	-1.50567943172736";
"3.85	-1.50898614507427";
"3.86	-1.5122932647259";
"3.87	-1.5156007844689";
"3.88	-1.51890869818531";
"3.89	-1.52221699985103";
"3.9	-1.52552568353444";
"3.91	-1.52883474339494";
"3.92	-1.53214417368152";
"3.93	-1.53545396873142";
"3.94	-1.53876412296873";
"3.95	-1.54207463090307";
"3.96	-1.54538548712827";
"3.97	-1.54869668632106";
"3.98	-1.55200822323978";
"3.99	-1.55532009272315";
"4	-1.55863228968901";
"4.01	-1.56194480913312";
"4.02	-1.56525764612791";
"4.03	-1.56857079582135";
"4.04	-1.57188425343577";
"4.05	-1.5751980142667";
"4.06	-1.57851207368177";
"4.07	-1.58182642711955";
"4.08	-1.58514107008851";
"4.09	-1.58845599816591";
"4.1	-1.59177120699677";
"4.11	-1.59508669229279";
"4.12	-1.59840244983135";
"4.13	-1.60171847545449";
"4.14	-1.60503476506792";
"4.15	-1.60835131464002";
"4.16	-1.61166812020091";
"4.17	-1.61498517784148";
"4.18	-1.61830248371244";
"4.19	-1.62162003402344";
"4.2	-1.62493782504214";
"4.21	-1.62825585309329";
"4.22	-1.63157411455791";
"4.23	-1.6348926058724";
"4.24	-1.63821132352766";
"4.25	-1.64153026406829";
"4.26	-1.64484942409178";
"4.27	-1.64816880024762";
"4.28	-1.65148838923659";
"4.29	-1.65480818780991";
"4.3	-1.65812819276852";
"4.31	-1.66144840096226";
"4.32	-1.66476880928915";
"4.33	-1.66808941469464";
"4.34	-1.67141021417091";
"4.35	-1.67473120475612";
"4.36	-1.67805238353369";
"4.37	-1.68137374763167";
"4.38	-1.684695294222";
"4.39	-1.68801702051983";
"4.4	-1.69133892378291";
"4.41	-1.6946610013109";
"4.42	-1.69798325044473";
"4.43	-1.70130566856595";
"4.44	-1.70462825309617";
"4.45	-1.70795100149637";
"4.46	-1.71127391126634";
"4.47	-1.71459697994407";
"4.48	-1.71792020510519";
"4.49	-1.72124358436234";
"4.5	-1.72456711536467";
"4.51	-1.72789079579722";
"4.52	-1.73121462338041";
"4.53	-1.73453859586947";
"4.54	-1.73786271105394";
"4.55	-1.74118696675712";
"4.56	-1.74451136083555";
"4.57	-1.74783589117851";
"4.58	-1.75116055570752";
"4.59	-1.75448535237586";
"4.6	-1.75781027916804";
"4.61	-1.76113533409937";
"4.62	-1.76446051521547";
"4.63	-1.76778582059177";
"4.64	-1.77111124833315";
"4.65	-1.77443679657336";
"4.66	-1.7777624634747";
"4.67	-1.78108824722749";
"4.68	-1.7844141460497";
"4.69	-1.7877401581865";
"4.7	-1.79106628190986";
"4.71	-1.79439251551812";
"4.72	-1.7977188573356";
"4.73	-1.80104530571219";
"4.74	-1.80437185902298";
"4.75	-1.80769851566787";
"4.76	-1.81102527407117";
"4.77	-1.81435213268124";
"4.78	-1.81767908997013";
"4.79	-1.82100614443321";
"4.8	-1.82433329458881";
"4.81	-1.82766053897787";
"4.82	-1.8309878761636";
"4.83	-1.83431530473114";
"4.84	-1.83764282328721";
"4.85	-1.84097043045981";
"4.86	-1.84429812489785";
"4.87	-1.84762590527089";
"4.88	-1.85095377026876";
"4.89	-1.8542817186013";
"4.9	-1.85760974899801";
"4.91	-1.86093786020782";
"4.92	-1.8642660509987";
"4.93	-1.86759432015744";
"4.94	-1.87092266648934";
"4.95	-1.87425108881793";
"4.96	-1.87757958598467";
"4.97	-1.88090815684871";
"4.98	-1.88423680028659";
"4.99	-1.88756551519201";
"5	-1.89089430047552";
"5.01	-1.89422315506431";
"5.02	-1.89755207790193";
"5.03	-1.90088106794803";
"5.04	-1.90421012417814";
"5.05	-1.90753924558342";
"5.06	-1.9108684311704";
"5.07	-1.9141976799608";
"5.08	-1.9175269909912";
"5.09	-1.92085636331294";
"5.1	-1.92418579599179";
"5.11	-1.92751528810777";
"5.12	-1.93084483875494";
"5.13	-1.93417444704117";
"5.14	-1.93750411208793";
"5.15	-1.94083383303012";
"5.16	-1.94416360901578";
"5.17	-1.94749343920599";
"5.18	-1.9508233227746";
"5.19	-1.95415325890805";
"5.2	-1.95748324680521";
"5.21	-1.96081328567714";
"5.22	-1.96414337474695";
"5.23	-1.9674735132496";
"5.24	-1.97080370043169";
"5.25	-1.97413393555132";
"5.26	-1.97746421787791";
"5.27	-1.98079454669202";
"5.28	-1.98412492128517";
"5.29	-1.98745534095968";
"5.3	-1.99078580502851";
"5.31	-1.99411631281511";
"5.32	-1.99744686365322";
"5.33	-2.00077745688675";
"5.34	-2.00410809186962";
"5.35	-2.00743876796559";
"5.36	-2.01076948454812";
"5.37	-2.01410024100023";
"5.38	-2.01743103671433";
"5.39	-2.02076187109211";
"5.4	-2.02409274354437";
"5.41	-2.0274236534909";
"5.42	-2.03075460036033";
"5.43	-2.03408558359";
"5.44	-2.03741660262583";
"5.45	-2.04074765692218";
"5.46	-2.04407874594173";
"5.47	-2.04740986915536";
"5.48	-2.05074102604201";
"5.49	-2.05407221608855";
"5.5	-2.05740343878969";
"5.51	-2.06073469364784";
"5.52	-2.06406598017298";
"5.53	-2.06739729788258";
"5.54	-2.07072864630144";
"5.55	-2.07406002496162";
"5.56	-2.07739143340232";
"5.57	-2.08072287116975";
"5.58	-2.08405433781703";
"5.59	-2.08738583290411";
"5.6	-2.09071735599763";
"5.61	-2.09404890667085";
"5.62	-2.09738048450353";
"5.63	-2.10071208908183";
"5.64	-2.10404371999821";
"5.65	-2.10737537685137";
"5.66	-2.11070705924609";
"5.67	-2.1140387667932";
"5.68	-2.11737049910945";
"5.69	-2.12070225581743";
"5.7	-2.12403403654549";
"5.71	-2.12736584092764";
"5.72	-2.13069766860346";
"5.73	-2.13402951921804";
"5.74	-2.13736139242186";
"5.75	-2.14069328787074";
"5.76	-2.14402520522574";
"5.77	-2.14735714415309";
"5.78	-2.15068910432409";
"5.79	-2.15402108541508";
"5.8	-2.1573530871073";
"5.81	-2.16068510908686";
"5.82	-2.16401715104467";
"5.83	-2.16734921267633";
"5.84	-2.17068129368208";
"5.85	-2.17401339376673";
"5.86	-2.17734551263961";
"5.87	-2.18067765001444";
"5.88	-2.18400980560933";
"5.89	-2.18734197914668";
"5.9	-2.19067417035312";
"5.91	-2.19400637895945";
"5.92	-2.19733860470055";
"5.93	-2.20067084731537";
"5.94	-2.20400310654683";
"5.95	-2.20733538214175";
"5.96	-2.21066767385083";
"5.97	-2.21399998142855";
"5.98	-2.21733230463315";
"5.99	-2.22066464322653";
"6	-2.22399699697425";
"6.01	-2.22732936564542";
"6.02	-2.23066174901267";
"6.03	-2.2339941468521";
"6.04	-2.23732655894322";
"6.05	-2.24065898506889";
"6.06	-2.2439914250153";
"6.07	-2.24732387857188";
"6.08	-2.25065634553128";
"6.09	-2.2539888256893";
"6.1	-2.25732131884485";
"6.11	-2.26065382479992";
"6.12	-2.2639863433595";
"6.13	-2.26731887433156";
"6.14	-2.27065141752699";
"6.15	-2.27398397275956";
"6.16	-2.2773165398459";
"6.17	-2.28064911860541";
"6.18	-2.28398170886024";
"6.19	-2.28731431043527";
"6.2	-2.29064692315803";
"6.21	-2.29397954685868";
"6.22	-2.29731218136998";
"6.23	-2.30064482652723";
"6.24	-2.30397748216824";
"6.25	-2.30731014813329";
"6.26	-2.31064282426509";
"6.27	-2.31397551040876";
"6.28	-2.31730820641177";
"6.29	-2.3206409121239";
"6.3	-2.32397362739725";
"6.31	-2.32730635208616";
"6.32	-2.33063908604717";
"6.33	-2.33397182913903";
"6.34	-2.33730458122264";
"6.35	-2.34063734216101";
"6.36	-2.34397011181924";
"6.37	-2.34730289006449";
"6.38	-2.35063567676593";
"6.39	-2.35396847179474";
"6.4	-2.35730127502406";
"6.41	-2.36063408632895";
"6.42	-2.3639669055864";
"6.43	-2.36729973267523";
"6.44	-2.37063256747615";
"6.45	-2.37396540987167";
"6.46	-2.37729825974609";
"6.47	-2.38063111698547";
"6.48	-2.3839639814776";
"6.49	-2.38729685311201";
"6.5	-2.39062973177987";
"6.51	-2.39396261737405";
"6.52	-2.39729550978902";
"6.53	-2.40062840892087";
"6.54	-2.40396131466727";
"6.55	-2.40729422692746";
"6.56	-2.4106271456022";
"6.57	-2.41396007059378";
"6.58	-2.41729300180595";
"6.59	-2.42062593914396";
"6.6	-2.42395888251448";
"6.61	-2.42729183182561";
"6.62	-2.43062478698685";
"6.63	-2.43395774790907";
"6.64	-2.43729071450453";
"6.65	-2.44062368668677";
"6.66	-2.44395666437071";
"6.67	-2.44728964747252";
"6.68	-2.45062263590966";
"6.69	-2.45395562960086";
"6.7	-2.45728862846608";
"6.71	-2.4606216324265";
"6.72	-2.46395464140449";
"6.73	-2.46728765532361";
"6.74	-2.4706206741086";
"6.75	-2.47395369768532";
"6.76	-2.47728672598078";
"6.77	-2.48061975892309";
"6.78	-2.48395279644147";
"6.79	-2.48728583846619";
"6.8	-2.49061888492862";
"6.81	-2.49395193576115";
"6.82	-2.49728499089719";
"6.83	-2.5006180502712";
"6.84	-2.50395111381862";
"6.85	-2.50728418147585";
"6.86	-2.51061725318031";
"6.87	-2.51395032887032";
"6.88	-2.51728340848518";
"6.89	-2.52061649196509";
"6.9	-2.52394957925118";
"6.91	-2.52728267028546";
"6.92	-2.53061576501083";
"6.93	-2.53394886337106";
"6.94	-2.53728196531078";
"6.95	-2.54061507077546";
"6.96	-2.5439481797114";
"6.97	-2.54728129206573";
"6.98	-2.55061440778635";
"6.99	-2.553947526822";
"7	-2.55728064912218";
"7.01	-2.56061377463714";
"7.02	-2.56394690331793";
"7.03	-2.5672800351163";
"7.04	-2.57061316998477";
"7.05	-2.57394630787657";
"7.06	-2.57727944874564";
"7.07	-2.58061259254663";
"7.08	-2.58394573923488";
"7.09	-2.58727888876639";
"7.1	-2.59061204109785";
"7.11	-2.59394519618662";
"7.12	-2.59727835399068";
"7.13	-2.60061151446868";
"7.14	-2.60394467757988";
"7.15	-2.60727784328416";
"7.16	-2.61061101154202";
"7.17	-2.61394418231457";
"7.18	-2.61727735556349";
"7.19	-2.62061053125106";
"7.2	-2.62394370934014";
"7.21	-2.62727688979413";
"7.22	-2.63061007257701";
"7.23	-2.6339432576533";
"7.24	-2.63727644498807";
"7.25	-2.64060963454691";
"7.26	-2.64394282629594";
"7.27	-2.6472760202018";
"7.28	-2.65060921623162";
"7.29	-2.65394241435306";
"7.3	-2.65727561453425";
"7.31	-2.66060881674381";
"7.32	-2.66394202095085";
"7.33	-2.66727522712493";
"7.34	-2.67060843523609";
"7.35	-2.67394164525482";
"7.36	-2.67727485715206";
"7.37	-2.6806080708992";
"7.38	-2.68394128646805";
"7.39	-2.68727450383086";
"7.4	-2.69060772296031";
"7.41	-2.69394094382948";
"7.42	-2.69727416641187";
"7.43	-2.70060739068138";
"7.44	-2.70394061661231";
"7.45	-2.70727384417935";
"7.46	-2.71060707335758";
"7.47	-2.71394030412245";
"7.48	-2.7172735364498";
"7.49	-2.72060677031582";
"7.5	-2.72394000569707";
"7.51	-2.72727324257046";
"7.52	-2.73060648091328";
"7.53	-2.73393972070313";
"7.54	-2.73727296191797";
"7.55	-2.74060620453609";
"7.56	-2.74393944853612";
"7.57	-2.747272693897";
"7.58	-2.750605940598";
"7.59	-2.75393918861872";
"7.6	-2.75727243793904";
"7.61	-2.76060568853917";
"7.62	-2.7639389403996";
"7.63	-2.76727219350115";
"7.64	-2.77060544782491";
"7.65	-2.77393870335226";
"7.66	-2.77727196006485";
"7.67	-2.78060521794465";
"7.68	-2.78393847697386";
"7.69	-2.78727173713497";
"7.7	-2.79060499841075";
"7.71	-2.79393826078422";
"7.72	-2.79727152423864";
"7.73	-2.80060478875756";
"7.74	-2.80393805432477";
"7.75	-2.80727132092428";
"7.76	-2.81060458854037";
"7.77	-2.81393785715757";
"7.78	-2.81727112676061";
"7.79	-2.82060439733448";
"7.8	-2.82393766886439";
"7.81	-2.82727094133578";
"7.82	-2.83060421473431";
"7.83	-2.83393748904585";
"7.84	-2.83727076425649";
"7.85	-2.84060404035254";
"7.86	-2.8439373173205";
"7.87	-2.84727059514711";
"7.88	-2.85060387381927";
"7.89	-2.85393715332411";
"7.9	-2.85727043364894";
"7.91	-2.86060371478126";
"7.92	-2.86393699670879";
"7.93	-2.86727027941941";
"7.94	-2.87060356290117";
"7.95	-2.87393684714235";
"7.96	-2.87727013213137";
"7.97	-2.88060341785684";
"7.98	-2.88393670430754";
"7.99	-2.88726999147242";
"8	-2.8906032793406"].

(** Tables/e_split.table 1-101. *)
Definition e_split_lines : list string := [
"100";
"0	0	0	0	0	0	0	0	0	0	0	0	0	0	0	0	0	0	0	0	0	0	0	0	0	0	0	0	0	0	0	0	0	1.4e-15	9.49e-14	4.5332e-12	1.5336e-10	3.75522e-09	6.78666e-08	9.21099e-07	9.5347e-06	7.63288e-05	0.000478531	0.00237679	0.00945478	0.0304431	0.080205	0.174939	0.320206	0.5	0.679794	0.825061	0.919795	0.969557	0.990545	0.997623	0.999521	0.999924	0.99999	0.999999	1	1	1	1	1	1	1	1	1	1	1	1	1	1	1	1	1	1	1	1	1	1	1	1	1	1	1	1	1	1	1	1	1	1	1	1	1	1	1	1	";
"0	0	0	0	0	0	0	0	0	0	0	0	0	0	0	0	0	0	0	0	0	0	0	0	0	0	0	0	0	0	0	0	9e-16	5.69e-14	2.4141e-12	7.38762e-11	1.66736e-09	2.83023e-08	3.67626e-07	3.71088e-06	2.95126e-05	0.000187226	0.000958138	0.00399645	0.0137193	0.0391304	0.0936296	0.189906	0.330386	0.5	0.669614	0.810094	0.90637	0.96087	0.986281	0.996004	0.999042	0.999813	0.99997	0.999996	1	1	1	1	1	1	1	1	1	1	1	1	1	1	1	1	1	1	1	1	1	1	1	1	1	1	1	1	1	1	1	1	1	1	1	1	1	1	1	1	";
"0	0	0	0	0	0	0	0	0	0	0	0	0	0	0	0	0	0	0	0	0	0	0	0	0	0	0	0	0	0	0	8e-16	4.07e-14	1.5286e-12	4.21094e-11	8.69794e-10	1.37375e-08	1.688e-07	1.63865e-06	1.27405e-05	8.03126e-05	0.000415003	0.00177555	0.00634787	0.0191301	0.0490086	0.107653	0.204624	0.34004	0.5	0.65996	0.795376	0.892347	0.950991	0.98087	0.993652	0.998224	0.999585	0.99992	0.999987	0.999998	1	1	1	1	1	1	1	1	1	1	1	1	1	1	1	1	1	1	1	1	1	1	1	1	1	1	1	1	1	1	1	1	1	1	1	1	1	1	1	";
"0	0	0	0	0	0	0	0	0	0	0	0	0	0	0	0	0	0	0	0	0	0	0	0	0	0	0	0	0	0	7e-16	3.4e-14	1.1306e-12	2.7977e-11	5.26639e-10	7.69112e-09	8.86664e-08	8.19377e-07	6.15283e-06	3.80014e-05	0.000195151	0.000841459	0.00307364	0.00958961	0.0257542	0.0599887	0.122118	0.21902	0.349188	0.5	0.650812	0.78098	0.877882	0.940011	0.974246	0.99041	0.996926	0.999159	0.999805	0.999962	0.999994	0.999999	1	1	1	1	1	1	1	1	1	1	1	1	1	1	1	1	1	1	1	1	1	1	1	1	1	1	1	1	1	1	1	1	1	1	1	1	1	1	";
"0	0	0	0	0	0	0	0	0	0	0	0	0	0	0	0	0	0	0	0	0	0	0	0	0	0	0	0	0	8e-16	3.25e-14	9.597e-13	2.13296e-11	3.65205e-10	4.91348e-09	5.28548e-08	4.61619e-07	3.31804e-06	1.98661e-05	0.000100149	0.000429206	0.0015774	0.0050109	0.0138602	0.0336128	0.0719521	0.136874	0.233032	0.357845	0.5	0.642155	0.766968	0.863126	0.928048	0.966387	0.98614	0.994989	0.998423	0.999571	0.9999	0.99998	0.999997	1	1	1	1	1	1	1	1	1	1	1	1	1	1	1	1	1	1	1	1	1	1	1	1	1	1	1	1	1	1	1	1	1	1	1	1	1	1	";
"0	0	0	0	0	0	0	0	0	0	0	0	0	0	0	0	0	0	0	0	0	0	0	0	0	0	0	0	1e-15	3.5e-14	9.188e-13	1.83699e-11	2.86075e-10	3.53983e-09	3.54157e-08	2.90929e-07	1.98905e-06	1.14548e-05	5.61626e-05	0.00023668	0.000864645	0.0027595	0.00774821	0.0192655	0.0426822	0.0847602	0.15178	0.246614	0.366032	0.5	0.633968	0.753386	0.84822	0.91524	0.957318	0.980734	0.992252	0.99724	0.999135	0.999763	0.999944	0.999989	0.999998	1	1	1	1	1	1	1	1	1	1	1	1	1	1	1	1	1	1	1	1	1	1	1	1	1	1	1	1	1	1	1	1	1	1	1	1	1	";
"0	0	0	0	0	0	0	0	0	0	0	0	0	0	0	0	0	0	0	0	0	0	0	0	0	0	0	1.3e-15	4.16e-14	9.757e-13	1.75995e-11	2.49636e-10	2.84085e-09	2.63967e-08	2.03379e-07	1.31706e-06	7.25537e-06	3.43618e-05	0.000141241	0.000508129	0.00161217	0.00454201	0.0114342	0.0258707	0.0528975	0.0982624	0.16671	0.259732	0.373768	0.5	0.626232	0.740268	0.83329	0.901738	0.947103	0.974129	0.988566	0.995458	0.998388	0.999492	0.999859	0.999966	0.999993	0.999999	1	1	1	1	1	1	1	1	1	1	1	1	1	1	1	1	1	1	1	1	1	1	1	1	1	1	1	1	1	1	1	1	1	1	1	1	";
"0	0	0	0	0	0	0	0	0	0	0	0	0	0	0	0	0	0	0	0	0	0	0	0	0	0	1.9e-15	5.36e-14	1.1311e-12	1.84817e-11	2.39393e-10	2.50867e-09	2.16487e-08	1.56246e-07	9.56057e-07	5.01952e-06	2.2853e-05	9.1077e-05	0.000320397	0.00100237	0.0028077	0.00708435	0.0161918	0.0336959	0.0641598	0.112304	0.18155	0.272358	0.381073	0.5	0.618927	0.727642	0.81845	0.887696	0.93584	0.966304	0.983808	0.992916	0.997192	0.998998	0.99968	0.999909	0.999977	0.999995	0.999999	1	1	1	1	1	1	1	1	1	1	1	1	1	1	1	1	1	1	1	1	1	1	1	1	1	1	1	1	1	1	1	1	1	1	1	";
"0	0	0	0	0	0	0	0	0	0	0	0	0	0	0	0	0	0	0	0	0	0	0	0	1e-16	2.9e-15	7.39e-14	1.4105e-12	2.09766e-11	2.49002e-10	2.40841e-09	1.93243e-08	1.30651e-07	7.54565e-07	3.76767e-06	1.64377e-05	6.32508e-05	0.00021645	0.000663633	0.00183509	0.004604	0.0105368	0.0221072	0.0427165	0.0763446	0.126732	0.196204	0.284476	0.387966	0.5	0.612034	0.715524	0.803796	0.873268	0.923655	0.957283	0.977893	0.989463	0.995396	0.998165	0.999336	0.999784	0.999937	0.999984	0.999996	0.999999	1	1	1	1	1	1	1	1	1	1	1	1	1	1	1	1	1	1	1	1	1	1	1	1	1	1	1	1	1	1	1	1	1	1	";
"0	0	0	0	0	0	0	0	0	0	0	0	0	0	0	0	0	0	0	0	0	0	0	2e-16	4.7e-15	1.074e-13	1.8657e-12	2.53954e-11	2.77451e-10	2.4847e-09	1.8575e-08	1.17765e-07	6.41991e-07	3.04585e-06	1.27105e-05	4.70925e-05	0.000156197	0.000467213	0.00126861	0.00314529	0.00715834	0.0150269	0.0292239	0.0528681	0.0893099	0.141402	0.210587	0.296078	0.394467	0.5	0.605533	0.703922	0.789413	0.858598	0.91069	0.947132	0.970776	0.984973	0.992842	0.996855	0.998731	0.999533	0.999844	0.999953	0.999987	0.999997	0.999999	1	1	1	1	1	1	1	1	1	1	1	1	1	1	1	1	1	1	1	1	1	1	1	1	1	1	1	1	1	1	1	1	1	";
"0	0	0	0	0	0	0	0	0	0	0	0	0	0	0	0	0	0	0	0	0	0	3e-16	7.8e-15	1.621e-13	2.5845e-12	3.23947e-11	3.27333e-10	2.72451e-09	1.90299e-08	1.13346e-07	5.83786e-07	2.63188e-06	1.04972e-05	3.73884e-05	0.000119909	0.000348816	0.00092639	0.00225926	0.00508599	0.0106184	0.0206477	0.037541	0.0640524	0.102905	0.156179	0.224632	0.30716	0.400595	0.5	0.599405	0.69284	0.775368	0.843821	0.897095	0.935948	0.962459	0.979352	0.989382	0.994914	0.997741	0.999074	0.999651	0.99988	0.999963	0.99999	0.999997	0.999999	1	1	1	1	1	1	1	1	1	1	1	1	1	1	1	1	1	1	1	1	1	1	1	1	1	1	1	1	1	1	1	1	";
"0	0	0	0	0	0	0	0	0	0	0	0	0	0	0	0	0	0	0	0	0	5e-16	1.3e-14	2.513e-13	3.7052e-12	4.30476e-11	4.04471e-10	3.14254e-09	2.05772e-08	1.15429e-07	5.62623e-07	2.41232e-06	9.19669e-06	3.14698e-05	9.74575e-05	0.00027515	0.000712797	0.00170415	0.00377944	0.00781145	0.0151087	0.0274512	0.0470148	0.0761457	0.116977	0.170941	0.238285	0.317723	0.406369	0.5	0.593631	0.682277	0.761715	0.829059	0.883023	0.923854	0.952985	0.972549	0.984891	0.992189	0.996221	0.998296	0.999287	0.999725	0.999903	0.999969	0.999991	0.999998	0.999999	1	1	1	1	1	1	1	1	1	1	1	1	1	1	1	1	1	1	1	1	1	1	1	1	1	1	1	1	1	1	1	";
"0	0	0	0	0	0	0	0	0	0	0	0	0	0	0	0	0	0	0	0	9e-16	2.2e-14	3.955e-13	5.4378e-12	5.89684e-11	5.18205e-10	3.77623e-09	2.32698e-08	1.23306e-07	5.70036e-07	2.32792e-06	8.4898e-06	2.7913e-05	8.34264e-05	0.000228331	0.000575965	0.00134674	0.00293391	0.0059822	0.0114632	0.0207197	0.035445	0.0575649	0.0890075	0.131377	0.185582	0.2515	0.327774	0.411807	0.5	0.588193	0.672226	0.7485	0.814418	0.868623	0.910992	0.942435	0.964555	0.97928	0.988537	0.994018	0.997066	0.998653	0.999424	0.999772	0.999917	0.999972	0.999992	0.999998	0.999999	1	1	1	1	1	1	1	1	1	1	1	1	1	1	1	1	1	1	1	1	1	1	1	1	1	1	1	1	1	1	";
"0	0	0	0	0	0	0	0	0	0	0	0	0	0	0	0	0	0	0	1.6e-15	3.68e-14	6.252e-13	8.0876e-12	8.24665e-11	6.82002e-10	4.68533e-09	2.7286e-08	1.3705e-07	6.02518e-07	2.34825e-06	8.20323e-06	2.5933e-05	7.48143e-05	0.000198411	0.000486864	0.0011117	0.00237418	0.00476369	0.00901638	0.0161568	0.0275005	0.0445944	0.0690811	0.102488	0.145964	0.200008	0.264247	0.337322	0.416925	0.5	0.583075	0.662678	0.735753	0.799992	0.854036	0.897512	0.930919	0.955406	0.972499	0.983843	0.990984	0.995236	0.997626	0.998888	0.999513	0.999802	0.999925	0.999974	0.999992	0.999998	0.999999	1	1	1	1	1	1	1	1	1	1	1	1	1	1	1	1	1	1	1	1	1	1	1	1	1	1	1	1	1	";
"0	0	0	0	0	0	0	0	0	0	0	0	0	0	0	0	0	1e-16	2.7e-15	6.07e-14	9.831e-13	1.20758e-11	1.1669e-10	9.14128e-10	5.95299e-09	3.29139e-08	1.57287e-07	6.59597e-07	2.45921e-06	8.24361e-06	2.50882e-05	6.99075e-05	0.000179677	0.000428741	0.000955239	0.0019973	0.00393672	0.00734391	0.013013	0.0219725	0.0354569	0.0548263	0.0814317	0.116436	0.16061	0.214143	0.276502	0.346379	0.421742	0.5	0.578258	0.653621	0.723498	0.785857	0.83939	0.883564	0.918568	0.945174	0.964543	0.978027	0.986987	0.992656	0.996063	0.998003	0.999045	0.999571	0.99982	0.99993	0.999975	0.999992	0.999998	0.999999	1	1	1	1	1	1	1	1	1	1	1	1	1	1	1	1	1	1	1	1	1	1	1	1	1	1	1	1	";
"0	0	0	0	0	0	0	0	0	0	0	0	0	0	0	0	1e-16	4.5e-15	9.74e-14	1.5229e-12	1.79433e-11	1.65682e-10	1.23798e-09	7.68652e-09	4.05439e-08	1.85085e-07	7.42846e-07	2.65663e-06	8.56365e-06	2.51296e-05	6.77076e-05	0.000168757	0.00039165	0.000851208	0.0017413	0.00336788	0.00618317	0.0108138	0.0180733	0.0289486	0.0445523	0.0660367	0.0944721	0.130703	0.175197	0.227921	0.288251	0.35496	0.426273	0.5	0.573727	0.64504	0.711749	0.772079	0.824803	0.869297	0.905528	0.933963	0.955448	0.971051	0.981927	0.989186	0.993817	0.996632	0.998259	0.999149	0.999608	0.999831	0.999932	0.999975	0.999991	0.999997	0.999999	1	1	1	1	1	1	1	1	1	1	1	1	1	1	1	1	1	1	1	1	1	1	1	1	1	1	1	";
"0	0	0	0	0	0	0	0	0	0	0	0	0	0	0	2e-16	7e-15	1.506e-13	2.3032e-12	2.63114e-11	2.34213e-10	1.6815e-09	1.00152e-08	5.06564e-08	2.21861e-07	8.55287e-07	2.94272e-06	9.14384e-06	2.59212e-05	6.76281e-05	0.000163621	0.000369537	0.000783602	0.00156804	0.00297429	0.0053691	0.00925636	0.0152885	0.0242604	0.0370802	0.0547129	0.0780988	0.108052	0.145149	0.189626	0.241291	0.299485	0.363079	0.430534	0.5	0.569466	0.636921	0.700515	0.758709	0.810374	0.854851	0.891948	0.921901	0.945287	0.96292	0.97574	0.984712	0.990744	0.994631	0.997026	0.998432	0.999216	0.99963	0.999836	0.999932	0.999974	0.999991	0.999997	0.999999	1	1	1	1	1	1	1	1	1	1	1	1	1	1	1	1	1	1	1	1	1	1	1	1	1	1	";
"0	0	0	0	0	0	0	0	0	0	0	0	0	0	3e-16	1.02e-14	2.218e-13	3.3698e-12	3.77668e-11	3.272e-10	2.27481e-09	1.30819e-08	6.37946e-08	2.69284e-07	1.00093e-06	3.32378e-06	9.98187e-06	2.73951e-05	6.93275e-05	0.000163029	0.000358642	0.00074239	0.00145344	0.0027034	0.00479614	0.00814457	0.0132799	0.020849	0.0315954	0.0463217	0.0658341	0.0908708	0.122022	0.159647	0.203808	0.254214	0.310202	0.370754	0.434539	0.5	0.565461	0.629246	0.689798	0.745786	0.796192	0.840353	0.877978	0.909129	0.934166	0.953678	0.968405	0.979151	0.98672	0.991855	0.995204	0.997297	0.998547	0.999258	0.999641	0.999837	0.999931	0.999973	0.99999	0.999997	0.999999	1	1	1	1	1	1	1	1	1	1	1	1	1	1	1	1	1	1	1	1	1	1	1	1	1	";
"0	0	0	0	0	0	0	0	0	0	0	0	0	4e-16	1.36e-14	3.08e-13	4.7247e-12	5.26354e-11	4.48483e-10	3.04502e-09	1.70251e-08	8.05078e-08	3.29105e-07	1.18426e-06	3.80842e-06	1.10856e-05	2.95244e-05	7.26121e-05	0.000166219	0.000356583	0.000721148	0.00138203	0.00252116	0.00439549	0.00734955	0.0118226	0.0183472	0.0275362	0.0400568	0.0565919	0.0777893	0.104204	0.136238	0.174081	0.217671	0.266659	0.320406	0.378001	0.438302	0.5	0.561698	0.621999	0.679594	0.733341	0.782329	0.825919	0.863762	0.895796	0.922211	0.943408	0.959943	0.972464	0.981653	0.988177	0.99265	0.995605	0.997479	0.998618	0.999279	0.999643	0.999834	0.999927	0.99997	0.999989	0.999996	0.999999	1	1	1	1	1	1	1	1	1	1	1	1	1	1	1	1	1	1	1	1	1	1	1	1	";
"0	0	0	0	0	0	0	0	0	0	0	0	4e-16	1.66e-14	3.977e-13	6.2839e-12	7.06332e-11	5.988e-10	4.00723e-09	2.19465e-08	1.01255e-07	4.02902e-07	1.40958e-06	4.40573e-06	1.24676e-05	3.23046e-05	7.73755e-05	0.000172717	0.000361825	0.000715672	0.00134357	0.00240505	0.00412142	0.00678513	0.0107649	0.0165046	0.0245136	0.0353484	0.0495847	0.0677811	0.0904374	0.117949	0.150566	0.188351	0.231156	0.278606	0.330102	0.384838	0.441837	0.5	0.558163	0.615162	0.669898	0.721394	0.768844	0.811649	0.849434	0.882051	0.909563	0.932219	0.950415	0.964652	0.975486	0.983495	0.989235	0.993215	0.995879	0.997595	0.998656	0.999284	0.999638	0.999827	0.999923	0.999968	0.999988	0.999996	0.999999	1	1	1	1	1	1	1	1	1	1	1	1	1	1	1	1	1	1	1	1	1	1	1	";
"0	0	0	0	0	0	0	0	0	0	0	4e-16	1.79e-14	4.706e-13	7.8388e-12	9.04481e-11	7.73018e-10	5.15142e-09	2.78623e-08	1.26255e-07	4.91685e-07	1.68005e-06	5.1231e-06	1.41396e-05	3.57399e-05	8.35578e-05	0.000182221	0.00037335	0.00072314	0.00133119	0.00233984	0.00394293	0.00639266	0.010003	0.0151483	0.0222561	0.0317929	0.0442439	0.0600865	0.0797596	0.103631	0.131963	0.164885	0.202369	0.244215	0.290042	0.3393	0.391283	0.445157	0.5	0.554843	0.608717	0.6607	0.709958	0.755785	0.797631	0.835115	0.868037	0.896369	0.92024	0.939913	0.955756	0.968207	0.977744	0.984852	0.989997	0.993607	0.996057	0.99766	0.998669	0.999277	0.999627	0.999818	0.999916	0.999964	0.999986	0.999995	0.999998	1	1	1	1	1	1	1	1	1	1	1	1	1	1	1	1	1	1	1	1	1	1	";
"0	0	0	0	0	0	0	0	0	0	3e-16	1.67e-14	5.009e-13	9.0496e-12	1.09414e-10	9.57201e-10	6.42636e-09	3.46393e-08	1.55284e-07	5.95353e-07	1.99645e-06	5.96353e-06	1.61072e-05	3.98295e-05	9.11129e-05	0.000194514	0.000390442	0.00074158	0.00134009	0.00231495	0.00383852	0.00613142	0.00946456	0.0141575	0.0205723	0.0291026	0.0401583	0.0541457	0.0714448	0.0923852	0.117221	0.146108	0.179087	0.216065	0.256812	0.300961	0.348013	0.397353	0.448273	0.5	0.551727	0.602647	0.651987	0.699039	0.743188	0.783935	0.820913	0.853892	0.882779	0.907615	0.928555	0.945854	0.959842	0.970897	0.979428	0.985843	0.990535	0.993869	0.996161	0.997685	0.99866	0.999258	0.99961	0.999805	0.999909	0.99996	0.999984	0.999994	0.999998	0.999999	1	1	1	1	1	1	1	1	1	1	1	1	1	1	1	1	1	1	1	1	";
"0	0	0	0	0	0	0	0	0	2e-16	1.3e-14	4.683e-13	9.512e-12	1.23567e-10	1.12678e-09	7.72465e-09	4.19243e-08	1.87433e-07	7.12023e-07	2.35557e-06	6.92222e-06	1.83625e-05	4.45553e-05	9.99816e-05	0.000209405	0.00041254	0.000769524	0.00136679	0.00232279	0.00379286	0.0059725	0.00909832	0.013446	0.0193251	0.0270701	0.0370284	0.0495456	0.0649481	0.0835252	0.105511	0.131065	0.160263	0.193077	0.229377	0.268922	0.311362	0.356254	0.403066	0.451197	0.5	0.548803	0.596934	0.643746	0.688638	0.731078	0.770623	0.806923	0.839737	0.868935	0.894489	0.916475	0.935052	0.950454	0.962972	0.97293	0.980675	0.986554	0.990902	0.994027	0.996207	0.997677	0.998633	0.99923	0.999587	0.999791	0.9999	0.999955	0.999982	0.999993	0.999998	0.999999	1	1	1	1	1	1	1	1	1	1	1	1	1	1	1	1	1	1	1	";
"0	0	0	0	0	0	0	0	1e-16	8e-15	3.725e-13	8.9138e-12	1.28413e-10	1.24784e-09	8.87606e-09	4.9087e-08	2.20866e-07	8.37296e-07	2.7484e-06	7.98273e-06	2.08772e-05	4.9867e-05	0.000110065	0.000226672	0.000439127	0.000805761	0.00140858	0.00235766	0.00379466	0.00589482	0.00886702	0.0129515	0.0184153	0.0255443	0.0346347	0.0459802	0.0598602	0.0765253	0.0961839	0.11899	0.14503	0.174316	0.206778	0.242261	0.280525	0.321249	0.36404	0.408439	0.45394	0.5	0.54606	0.591561	0.63596	0.678751	0.719475	0.757739	0.793222	0.825684	0.85497	0.88101	0.903816	0.923475	0.94014	0.95402	0.965365	0.974456	0.981585	0.987048	0.991133	0.994105	0.996205	0.997642	0.998591	0.999194	0.999561	0.999773	0.99989	0.99995	0.999979	0.999992	0.999997	0.999999	1	1	1	1	1	1	1	1	1	1	1	1	1	1	1	1	1	1	";
"0	0	0	0	0	0	0	0	3.6e-15	2.411e-13	7.2419e-12	1.20548e-10	1.28352e-09	9.65959e-09	5.52082e-08	2.52658e-07	9.63602e-07	3.1583e-06	9.11283e-06	2.35943e-05	5.5668e-05	0.000121199	0.000246022	0.000469637	0.000849158	0.00146316	0.00241501	0.0038352	0.00588243	0.00874292	0.0126279	0.0177694	0.0244138	0.032814	0.0432208	0.0558724	0.070984	0.0887383	0.109275	0.132683	0.158993	0.188172	0.220123	0.25468	0.291612	0.330629	0.371386	0.413489	0.456512	0.5	0.543488	0.586511	0.628614	0.669371	0.708388	0.74532	0.779877	0.811828	0.841007	0.867317	0.890725	0.911262	0.929016	0.944128	0.956779	0.967186	0.975586	0.982231	0.987372	0.991257	0.994118	0.996165	0.997585	0.998537	0.999151	0.99953	0.999754	0.999879	0.999944	0.999976	0.999991	0.999997	0.999999	1	1	1	1	1	1	1	1	1	1	1	1	1	1	1	1	1	";
"0	0	0	0	0	0	0	1.1e-15	1.191e-13	4.9054e-12	9.97334e-11	1.20635e-09	9.84395e-09	5.91557e-08	2.78821e-07	1.07987e-06	3.5596e-06	1.02608e-05	2.64201e-05	6.18007e-05	0.000133128	0.000267043	0.000503385	0.000898521	0.00152839	0.0024909	0.00390739	0.00592281	0.00870461	0.01244	0.0173321	0.0235943	0.0314438	0.0410948	0.0527502	0.066594	0.0827837	0.101443	0.122656	0.14646	0.172846	0.20175	0.23306	0.266608	0.302179	0.339513	0.378309	0.418232	0.458922	0.5	0.541078	0.581768	0.621691	0.660487	0.697821	0.733392	0.76694	0.79825	0.827154	0.85354	0.877344	0.898557	0.917216	0.933406	0.94725	0.958905	0.968556	0.976406	0.982668	0.98756	0.991295	0.994077	0.996093	0.997509	0.998472	0.999101	0.999497	0.999733	0.999867	0.999938	0.999974	0.99999	0.999996	0.999999	1	1	1	1	1	1	1	1	1	1	1	1	1	1	1	1	";
"0	0	0	0	0	0	2e-16	4.06e-14	2.6172e-12	7.02653e-11	1.01373e-09	9.25922e-09	5.97824e-08	2.9466e-07	1.17182e-06	3.91721e-06	1.13531e-05	2.92179e-05	6.80333e-05	0.000145483	0.000289164	0.000539496	0.000952481	0.00160205	0.00258166	0.004005	0.00600553	0.00873494	0.0123603	0.0170605	0.0230213	0.0304301	0.03947	0.0503138	0.063118	0.0780171	0.0951181	0.114496	0.136191	0.160203	0.186494	0.214982	0.245547	0.278027	0.312227	0.347914	0.384828	0.422685	0.461181	0.5	0.538819	0.577315	0.615172	0.652086	0.687773	0.721973	0.754453	0.785018	0.813506	0.839797	0.863809	0.885504	0.904882	0.921983	0.936882	0.949686	0.96053	0.96957	0.976979	0.982939	0.98764	0.991265	0.993994	0.995995	0.997418	0.998398	0.999048	0.999461	0.999711	0.999855	0.999932	0.999971	0.999989	0.999996	0.999999	1	1	1	1	1	1	1	1	1	1	1	1	1	1	1	";
"0	0	0	0	0	0	8.2e-15	1.008e-12	4.01012e-11	7.38972e-10	7.8855e-09	5.62563e-08	2.95551e-07	1.22329e-06	4.18798e-06	1.22944e-05	3.18053e-05	7.40513e-05	0.000157762	0.000311629	0.000576854	0.0010094	0.0016817	0.00268357	0.00412225	0.00612145	0.00881948	0.0123664	0.0169205	0.0226443	0.0296997	0.0382438	0.0484234	0.0603712	0.0742009	0.0900036	0.107844	0.12776	0.149757	0.173808	0.199857	0.227813	0.257553	0.288929	0.32176	0.355845	0.390959	0.426862	0.463296	0.5	0.536704	0.573138	0.609041	0.644155	0.67824	0.711071	0.742447	0.772187	0.800143	0.826192	0.850243	0.87224	0.892156	0.909996	0.925799	0.939629	0.951577	0.961756	0.9703	0.977356	0.983079	0.987634	0.991181	0.993879	0.995878	0.997316	0.998318	0.998991	0.999423	0.999688	0.999842	0.999926	0.999968	0.999988	0.999996	0.999999	1	1	1	1	1	1	1	1	1	1	1	1	1	1	";
"0	0	0	0	0	7e-16	2.433e-13	1.7174e-11	4.47221e-10	5.92063e-09	4.84628e-08	2.78176e-07	1.21875e-06	4.3246e-06	1.29723e-05	3.39564e-05	7.94553e-05	0.000169322	0.000333465	0.000614059	0.00106731	0.00176457	0.00279266	0.00425338	0.00626206	0.00894551	0.0124392	0.0168838	0.022422	0.0291942	0.0373349	0.046969	0.0582081	0.0711478	0.0858644	0.102413	0.120824	0.141107	0.163242	0.187186	0.212869	0.240199	0.269059	0.299308	0.330789	0.363324	0.396722	0.430777	0.465277	0.5	0.534723	0.569223	0.603278	0.636676	0.669211	0.700692	0.730941	0.759801	0.787131	0.812814	0.836758	0.858893	0.879176	0.897587	0.914136	0.928852	0.941792	0.953031	0.962665	0.970806	0.977578	0.983116	0.987561	0.991054	0.993738	0.995747	0.997207	0.998235	0.998933	0.999386	0.999667	0.999831	0.999921	0.999966	0.999987	0.999996	0.999999	1	1	1	1	1	1	1	1	1	1	1	1	1	";
"0	0	0	0	0	2.88e-14	4.8749e-12	2.10122e-10	3.77074e-09	3.73316e-08	2.42015e-07	1.14715e-06	4.28265e-06	1.32669e-05	3.54137e-05	8.37703e-05	0.000179379	0.000353484	0.000649405	0.00112384	0.00184744	0.0029046	0.00439242	0.00641903	0.00910123	0.0125618	0.0169264	0.0223205	0.0288658	0.0366778	0.0458622	0.0565126	0.0687084	0.0825124	0.0979696	0.115106	0.133927	0.15442	0.176549	0.200259	0.225477	0.252111	0.280049	0.309167	0.339324	0.370367	0.402132	0.434446	0.46713	0.5	0.53287	0.565554	0.597868	0.629633	0.660676	0.690833	0.719951	0.747889	0.774523	0.799741	0.823451	0.84558	0.866073	0.884894	0.90203	0.917488	0.931292	0.943487	0.954138	0.963322	0.971134	0.97768	0.983074	0.987438	0.990899	0.993581	0.995608	0.997095	0.998153	0.998876	0.999351	0.999647	0.999821	0.999916	0.999965	0.999987	0.999996	0.999999	1	1	1	1	1	1	1	1	1	1	1	1	";
"0	0	0	0	1e-15	7.387e-13	6.87417e-11	1.92065e-09	2.48552e-08	1.90622e-07	1.00656e-06	4.03078e-06	1.30678e-05	3.59097e-05	8.64705e-05	0.000187033	0.000370289	0.000680878	0.00117624	0.00192665	0.00301454	0.00453302	0.0065839	0.00927527	0.0127188	0.017027	0.0223102	0.0286744	0.0362182	0.0450308	0.0551903	0.0667617	0.0797959	0.0943286	0.11038	0.127952	0.147034	0.167597	0.189594	0.212966	0.237639	0.263523	0.290519	0.318512	0.34738	0.376992	0.407208	0.437881	0.468863	0.5	0.531137	0.562119	0.592792	0.623008	0.65262	0.681488	0.709481	0.736477	0.762361	0.787034	0.810406	0.832403	0.852966	0.872048	0.88962	0.905671	0.920204	0.933238	0.94481	0.954969	0.963782	0.971326	0.97769	0.982973	0.987281	0.990725	0.993416	0.995467	0.996985	0.998073	0.998824	0.999319	0.99963	0.999813	0.999914	0.999964	0.999987	0.999996	0.999999	1	1	1	1	1	1	1	1	1	1	1	";
"0	0	0	0	3.96e-14	1.29507e-11	7.11306e-10	1.35828e-08	1.31916e-07	8.08304e-07	3.56293e-06	1.22976e-05	3.52024e-05	8.70217e-05	0.000191313	0.000382322	0.00070619	0.00122134	0.00199802	0.00311711	0.00466831	0.00674791	0.00945628	0.0128953	0.0171658	0.0223653	0.0285853	0.0359102	0.0444147	0.0541633	0.0652086	0.0775907	0.0913369	0.106461	0.122963	0.140831	0.160039	0.180549	0.202309	0.225258	0.249324	0.274424	0.300466	0.327351	0.354973	0.383217	0.411965	0.441096	0.470484	0.5	0.529516	0.558904	0.588035	0.616783	0.645027	0.672649	0.699534	0.725576	0.750676	0.774742	0.797691	0.819451	0.839961	0.859169	0.877037	0.893539	0.908663	0.922409	0.934791	0.945837	0.955585	0.96409	0.971415	0.977635	0.982834	0.987105	0.990544	0.993252	0.995332	0.996883	0.998002	0.998779	0.999294	0.999618	0.999809	0.999913	0.999965	0.999988	0.999996	0.999999	1	1	1	1	1	1	1	1	1	1	";
"0	0	0	3e-16	9.772e-13	1.62192e-10	5.60491e-09	7.6645e-08	5.78527e-07	2.90983e-06	1.09401e-05	3.31225e-05	8.49472e-05	0.000191251	0.000387941	0.000722852	0.00125566	0.00205692	0.00320639	0.00479088	0.00690181	0.00963273	0.0130768	0.0173245	0.0224617	0.0285677	0.0357139	0.0439627	0.0533664	0.0639667	0.0757943	0.0888686	0.103198	0.11878	0.1356	0.153634	0.172849	0.193201	0.214637	0.237096	0.260511	0.284804	0.309896	0.335698	0.362118	0.389059	0.416422	0.444103	0.471998	0.5	0.528002	0.555897	0.583578	0.610941	0.637882	0.664302	0.690104	0.715196	0.739489	0.762904	0.785363	0.806799	0.827151	0.846366	0.8644	0.88122	0.896802	0.911131	0.924206	0.936033	0.946634	0.956037	0.964286	0.971432	0.977538	0.982676	0.986923	0.990367	0.993098	0.995209	0.996794	0.997943	0.998744	0.999277	0.999612	0.999809	0.999915	0.999967	0.999989	0.999997	0.999999	1	1	1	1	1	1	1	1	1	";
"0	0	0	1.35e-14	1.6549e-11	1.51014e-09	3.47528e-08	3.54575e-07	2.14478e-06	9.06732e-06	2.9631e-05	7.99148e-05	0.000185994	0.000385535	0.000728288	0.00127549	0.00209837	0.00327598	0.00489276	0.00703587	0.00979273	0.0132487	0.017485	0.0225772	0.0285935	0.0355941	0.0436302	0.0527435	0.0629662	0.0743204	0.0868188	0.100464	0.115251	0.131164	0.148179	0.166266	0.185386	0.205493	0.226534	0.248453	0.271186	0.294664	0.318816	0.343566	0.368834	0.394538	0.420593	0.446914	0.473413	0.5	0.526587	0.553086	0.579407	0.605462	0.631166	0.656434	0.681184	0.705336	0.728814	0.751547	0.773466	0.794507	0.814614	0.833734	0.851821	0.868836	0.884749	0.899536	0.913181	0.92568	0.937034	0.947256	0.95637	0.964406	0.971407	0.977423	0.982515	0.986751	0.990207	0.992964	0.995107	0.996724	0.997902	0.998725	0.999272	0.999614	0.999814	0.99992	0.99997	0.999991	0.999998	1	1	1	1	1	1	1	1	1	";
"0	0	0	3.785e-13	2.00862e-10	1.08309e-08	1.74531e-07	1.37725e-06	6.85733e-06	2.48775e-05	7.18414e-05	0.000174949	0.000373703	0.000720019	0.00127706	0.00211716	0.00331914	0.00496555	0.00713987	0.00992407	0.0133964	0.0176298	0.0226904	0.0286367	0.0355186	0.0433775	0.0522457	0.0621469	0.0730957	0.0850986	0.0981538	0.112252	0.127377	0.143505	0.160607	0.178647	0.197585	0.217375	0.237968	0.25931	0.281343	0.304007	0.327239	0.350972	0.375139	0.39967	0.424495	0.44954	0.474733	0.5	0.525267	0.55046	0.575505	0.60033	0.624861	0.649028	0.672761	0.695993	0.718657	0.74069	0.762032	0.782625	0.802415	0.821353	0.839393	0.856495	0.872623	0.887748	0.901846	0.914901	0.926904	0.937853	0.947754	0.956623	0.964481	0.971363	0.97731	0.98237	0.986604	0.990076	0.99286	0.995034	0.996681	0.997883	0.998723	0.99928	0.999626	0.999825	0.999928	0.999975	0.999993	0.999999	1	1	1	1	1	1	1	1	";
"0	0	3e-16	7.1679e-12	1.8173e-09	6.17487e-08	7.28221e-07	4.58644e-06	1.92425e-05	6.10035e-05	0.000157953	0.000351464	0.000695897	0.00125679	0.00210809	0.00332894	0.00500055	0.00720325	0.0100141	0.0135051	0.0177414	0.0227808	0.0286726	0.0354578	0.0431689	0.0518298	0.0614565	0.0720569	0.083632	0.0961758	0.109676	0.124114	0.139467	0.155706	0.172799	0.190708	0.209393	0.228811	0.248915	0.269656	0.290982	0.312841	0.335176	0.357933	0.381052	0.404474	0.428141	0.451992	0.475965	0.5	0.524035	0.548008	0.571859	0.595526	0.618948	0.642067	0.664824	0.687159	0.709018	0.730344	0.751085	0.771189	0.790607	0.809292	0.827201	0.844294	0.860533	0.875886	0.890324	0.903824	0.916368	0.927943	0.938544	0.94817	0.956831	0.964542	0.971327	0.977219	0.982259	0.986495	0.989986	0.992797	0.994999	0.996671	0.997892	0.998743	0.999304	0.999649	0.999842	0.999939	0.999981	0.999995	0.999999	1	1	1	1	1	1	1	";
"0	0	1.4e-14	9.60161e-11	1.26916e-08	2.87724e-07	2.58141e-06	1.33373e-05	4.81273e-05	0.000135468	0.000318529	0.000654417	0.00121159	0.00206627	0.00329858	0.00498898	0.00721526	0.0100502	0.0135598	0.0178025	0.022828	0.0286777	0.0353841	0.0429717	0.0514568	0.0608484	0.0711486	0.0823534	0.0944528	0.107432	0.12127	0.135944	0.151427	0.167686	0.184688	0.202396	0.220772	0.239774	0.259361	0.279487	0.300108	0.321177	0.342646	0.364467	0.38659	0.408967	0.431547	0.45428	0.477114	0.5	0.522886	0.54572	0.568453	0.591033	0.61341	0.635533	0.657354	0.678823	0.699892	0.720513	0.740639	0.760226	0.779228	0.797604	0.815312	0.832314	0.848573	0.864056	0.87873	0.892568	0.905547	0.917647	0.928851	0.939152	0.948543	0.957028	0.964616	0.971322	0.977172	0.982197	0.98644	0.98995	0.992785	0.995011	0.996701	0.997934	0.998788	0.999346	0.999681	0.999865	0.999952	0.999987	0.999997	1	1	1	1	1	1	1	";
"0	0	3.912e-13	9.47157e-10	7.05745e-08	1.1229e-06	7.92794e-06	3.44175e-05	0.000108748	0.000275599	0.000595098	0.0011393	0.00198753	0.0032217	0.0049223	0.00716518	0.0100193	0.0135456	0.0177958	0.0228124	0.0286293	0.0352713	0.0427553	0.0510909	0.0602809	0.0703218	0.0812051	0.0929173	0.105441	0.118754	0.132832	0.147648	0.163173	0.179374	0.196217	0.213668	0.23169	0.250246	0.269298	0.288805	0.308729	0.329029	0.349664	0.370593	0.391774	0.413166	0.434727	0.456414	0.478186	0.5	0.521814	0.543586	0.565273	0.586834	0.608226	0.629407	0.650336	0.670971	0.691271	0.711195	0.730702	0.749754	0.76831	0.786332	0.803783	0.820626	0.836827	0.852352	0.867168	0.881246	0.894559	0.907083	0.918795	0.929678	0.939719	0.948909	0.957245	0.964729	0.971371	0.977188	0.982204	0.986454	0.989981	0.992835	0.995078	0.996778	0.998012	0.998861	0.999405	0.999724	0.999891	0.999966	0.999992	0.999999	1	1	1	1	1	1	";
"0	0	7.4e-12	7.13161e-09	3.21218e-07	3.75025e-06	2.14599e-05	7.99357e-05	0.000224655	0.000518915	0.00103915	0.00186887	0.00309289	0.00479261	0.00704272	0.00990906	0.0134476	0.0177042	0.0227146	0.0285053	0.0350942	0.0424912	0.0506995	0.059716	0.0695325	0.0801362	0.0915102	0.103635	0.116487	0.130041	0.14427	0.159146	0.174637	0.190714	0.207343	0.224493	0.242129	0.260217	0.278725	0.297616	0.316857	0.336413	0.356249	0.37633	0.396621	0.417086	0.437692	0.458403	0.479184	0.5	0.520816	0.541597	0.562308	0.582914	0.603379	0.62367	0.643751	0.663587	0.683143	0.702384	0.721275	0.739783	0.757871	0.775507	0.792657	0.809286	0.825363	0.840854	0.85573	0.869959	0.883513	0.896365	0.90849	0.919864	0.930467	0.940284	0.949301	0.957509	0.964906	0.971495	0.977285	0.982296	0.986552	0.990091	0.992957	0.995207	0.996907	0.998131	0.998961	0.999481	0.999775	0.99992	0.999979	0.999996	1	1	1	1	1	1	";
"0	1e-16	9.90489e-11	4.23121e-08	1.22625e-06	1.09224e-05	5.19745e-05	0.000169175	0.000428756	0.000912391	0.00170918	0.00290825	0.00459319	0.00683842	0.0097073	0.0132515	0.0175111	0.0225156	0.0282846	0.034829	0.0421525	0.0502519	0.0591191	0.068741	0.079101	0.0901793	0.101954	0.1144	0.127492	0.141203	0.155504	0.170368	0.185763	0.201662	0.218034	0.234848	0.252075	0.269684	0.287646	0.30593	0.324507	0.343347	0.36242	0.381697	0.401148	0.420745	0.440457	0.460256	0.480114	0.5	0.519886	0.539744	0.559543	0.579255	0.598852	0.618303	0.63758	0.656653	0.675493	0.69407	0.712354	0.730316	0.747925	0.765152	0.781966	0.798338	0.814237	0.829632	0.844496	0.858797	0.872508	0.8856	0.898046	0.909821	0.920899	0.931259	0.940881	0.949748	0.957848	0.965171	0.971715	0.977484	0.982489	0.986749	0.990293	0.993162	0.995407	0.997092	0.998291	0.999088	0.999571	0.999831	0.999948	0.999989	0.999999	1	1	1	1	1	";
"0	3.4e-15	9.7659e-10	2.03497e-07	4.0117e-06	2.8202e-05	0.000114123	0.000329828	0.000762947	0.00150992	0.00266617	0.00431914	0.00654422	0.0094031	0.0129436	0.0172006	0.0221973	0.0279466	0.034453	0.0417136	0.0497197	0.0584579	0.067911	0.0780585	0.0888779	0.100345	0.112434	0.125118	0.13837	0.152163	0.166469	0.181259	0.196507	0.212185	0.228265	0.24472	0.261523	0.278648	0.296069	0.31376	0.331695	0.349849	0.368196	0.386713	0.405374	0.424156	0.443033	0.461982	0.480979	0.5	0.519021	0.538018	0.556967	0.575844	0.594626	0.613287	0.631804	0.650151	0.668305	0.68624	0.703931	0.721352	0.738477	0.75528	0.771735	0.787815	0.803493	0.818741	0.833531	0.847837	0.86163	0.874882	0.887566	0.899655	0.911122	0.921942	0.932089	0.941542	0.95028	0.958286	0.965547	0.972053	0.977803	0.982799	0.987056	0.990597	0.993456	0.995681	0.997334	0.99849	0.999237	0.99967	0.999886	0.999972	0.999996	1	1	1	1	1	";
"0	1.123e-13	7.34984e-09	8.13655e-07	1.14619e-05	6.54959e-05	0.000229824	0.000598065	0.00127607	0.00236825	0.00396824	0.00615415	0.00898708	0.0125116	0.0167577	0.0217422	0.0274717	0.0339441	0.0411504	0.0490761	0.0577029	0.0670093	0.0769714	0.0875641	0.0987609	0.110535	0.122859	0.135705	0.149047	0.162857	0.177109	0.191777	0.206835	0.222259	0.238022	0.254102	0.270475	0.287117	0.304007	0.321121	0.338438	0.355938	0.373597	0.391397	0.409316	0.427334	0.445432	0.463588	0.481784	0.5	0.518216	0.536412	0.554568	0.572666	0.590684	0.608603	0.626403	0.644062	0.661562	0.678879	0.695993	0.712883	0.729525	0.745898	0.761978	0.777741	0.793165	0.808223	0.822891	0.837143	0.850953	0.864295	0.877141	0.889465	0.901239	0.912436	0.923029	0.932991	0.942297	0.950924	0.95885	0.966056	0.972528	0.978258	0.983242	0.987488	0.991013	0.993846	0.996032	0.997632	0.998724	0.999402	0.99977	0.999935	0.999989	0.999999	1	1	1	1	";
"0	2.4774e-12	4.35732e-08	2.76622e-06	2.90764e-05	0.00013855	0.000428804	0.00101711	0.00202043	0.00354206	0.0056653	0.00845218	0.0119449	0.0161685	0.0211341	0.0268415	0.0332819	0.0404401	0.0482961	0.0568264	0.0660054	0.0758059	0.0862001	0.0971595	0.108656	0.120661	0.133148	0.14609	0.15946	0.173232	0.187383	0.201888	0.216724	0.231868	0.247298	0.262994	0.278935	0.295101	0.311472	0.32803	0.344756	0.361633	0.378642	0.395767	0.41299	0.430295	0.447664	0.465083	0.482533	0.5	0.517467	0.534917	0.552336	0.569705	0.58701	0.604233	0.621358	0.638367	0.655244	0.67197	0.688528	0.704899	0.721065	0.737006	0.752702	0.768132	0.783276	0.798112	0.812617	0.826768	0.84054	0.85391	0.866852	0.879339	0.891344	0.902841	0.9138	0.924194	0.933995	0.943174	0.951704	0.95956	0.966718	0.973159	0.978866	0.983831	0.988055	0.991548	0.994335	0.996458	0.99798	0.998983	0.999571	0.999861	0.999971	0.999997	1	1	1	1	";
"0	3.80116e-11	2.09238e-07	8.15808e-06	6.64415e-05	0.000269934	0.000747872	0.00163435	0.00304729	0.00507897	0.00779466	0.0112352	0.0154214	0.0203582	0.0260385	0.0324467	0.0395611	0.0473558	0.0558024	0.0648709	0.0745308	0.0847515	0.0955027	0.106755	0.118479	0.130648	0.143234	0.156212	0.169558	0.183247	0.197258	0.211568	0.226157	0.241004	0.256092	0.2714	0.286913	0.302612	0.318482	0.334506	0.350668	0.366955	0.38335	0.399841	0.416412	0.43305	0.449741	0.466472	0.483229	0.5	0.516771	0.533528	0.550259	0.56695	0.583588	0.600159	0.61665	0.633045	0.649332	0.665494	0.681518	0.697388	0.713087	0.7286	0.743908	0.758996	0.773843	0.788432	0.802742	0.816753	0.830442	0.843788	0.856766	0.869352	0.881521	0.893245	0.904497	0.915249	0.925469	0.935129	0.944198	0.952644	0.960439	0.967553	0.973961	0.979642	0.984579	0.988765	0.992205	0.994921	0.996953	0.998366	0.999252	0.99973	0.999934	0.999992	1	1	1	1	";
"0	4.23054e-10	8.34195e-07	2.12433e-05	0.000138491	0.000489072	0.00122884	0.00249752	0.00440231	0.00701535	0.010378	0.0145072	0.0194017	0.0250471	0.0314206	0.0384934	0.0462334	0.054607	0.0635797	0.0731175	0.0831871	0.0937561	0.104794	0.11627	0.128157	0.140429	0.153059	0.166025	0.179302	0.192871	0.206711	0.220802	0.235126	0.249667	0.264406	0.27933	0.294421	0.309667	0.325054	0.340567	0.356194	0.371922	0.38774	0.403635	0.419596	0.435612	0.451671	0.467763	0.483876	0.5	0.516124	0.532237	0.548329	0.564388	0.580404	0.596365	0.61226	0.628078	0.643806	0.659433	0.674946	0.690333	0.705579	0.72067	0.735594	0.750333	0.764874	0.779198	0.793289	0.807129	0.820698	0.833975	0.846941	0.859571	0.871843	0.88373	0.895206	0.906244	0.916813	0.926882	0.93642	0.945393	0.953767	0.961507	0.968579	0.974953	0.980598	0.985493	0.989622	0.992985	0.995598	0.997502	0.998771	0.999511	0.999862	0.999979	0.999999	1	1	1	";
"0	3.54542e-09	2.82253e-06	4.96051e-05	0.000266238	0.000831069	0.0019153	0.00365037	0.00612142	0.00937329	0.0134201	0.0182542	0.0238535	0.0301869	0.037218	0.0449081	0.0532176	0.0621074	0.0715397	0.0814781	0.0918884	0.102738	0.113997	0.125636	0.137629	0.14995	0.162578	0.175489	0.188663	0.202082	0.215727	0.229582	0.243631	0.257858	0.27225	0.286793	0.301475	0.316283	0.331206	0.346233	0.361352	0.376555	0.391829	0.407167	0.422559	0.437994	0.453465	0.468962	0.484477	0.5	0.515523	0.531038	0.546535	0.562006	0.577441	0.592833	0.608171	0.623445	0.638648	0.653767	0.668794	0.683717	0.698525	0.713207	0.72775	0.742142	0.756369	0.770418	0.784273	0.797918	0.811337	0.824511	0.837422	0.85005	0.862371	0.874364	0.886003	0.897262	0.908112	0.918522	0.92846	0.937893	0.946782	0.955092	0.962782	0.969813	0.976146	0.981746	0.98658	0.990627	0.993879	0.99635	0.998085	0.999169	0.999734	0.99995	0.999997	1	1	1	";
"0	2.31248e-08	8.26525e-06	0.000105284	0.000476604	0.00133439	0.00284893	0.00512882	0.00822787	0.0121593	0.0169091	0.0224465	0.0287311	0.035718	0.0433607	0.0516133	0.0604313	0.0697729	0.0795984	0.0898713	0.100557	0.111626	0.123046	0.134793	0.146842	0.159169	0.171753	0.184576	0.197619	0.210865	0.224299	0.237906	0.251672	0.265586	0.279634	0.293806	0.308091	0.322478	0.336959	0.351524	0.366164	0.380871	0.395636	0.410453	0.425312	0.440207	0.455131	0.470076	0.485034	0.5	0.514966	0.529924	0.544869	0.559793	0.574688	0.589547	0.604364	0.619129	0.633836	0.648476	0.663041	0.677522	0.691909	0.706194	0.720366	0.734414	0.748328	0.762094	0.775701	0.789135	0.802381	0.815424	0.828247	0.840831	0.853158	0.865207	0.876954	0.888374	0.899443	0.910129	0.920402	0.930227	0.939569	0.948387	0.956639	0.964282	0.971269	0.977554	0.983091	0.987841	0.991772	0.994871	0.997151	0.998666	0.999523	0.999895	0.999992	1	1	1	";
"0	1.20866e-07	2.13174e-05	0.0002055	0.000801188	0.00203775	0.00406564	0.00695783	0.0107306	0.0153642	0.020818	0.027041	0.0339781	0.0415738	0.0497747	0.0585305	0.0677945	0.0775236	0.0876786	0.0982236	0.109126	0.120356	0.131887	0.143695	0.155756	0.168051	0.18056	0.193267	0.206157	0.219213	0.232424	0.245776	0.259259	0.272861	0.286572	0.300383	0.314286	0.328271	0.342332	0.35646	0.370648	0.384889	0.399178	0.413507	0.427871	0.442263	0.456677	0.471109	0.485552	0.5	0.514448	0.528891	0.543323	0.557737	0.572129	0.586493	0.600822	0.615111	0.629352	0.64354	0.657668	0.671729	0.685714	0.699617	0.713428	0.727139	0.740741	0.754224	0.767576	0.780787	0.793843	0.806733	0.81944	0.831949	0.844244	0.856305	0.868113	0.879644	0.890874	0.901776	0.912321	0.922476	0.932206	0.941469	0.950225	0.958426	0.966022	0.972959	0.979182	0.984636	0.989269	0.993042	0.995934	0.997962	0.999199	0.999795	0.999979	1	1	1	";
"0	5.19466e-07	4.91923e-05	0.000372612	0.00127405	0.00297665	0.00559254	0.00914963	0.0136242	0.0189648	0.0251075	0.0319851	0.0395313	0.0476839	0.0563854	0.0655835	0.0752313	0.0852863	0.0957107	0.106471	0.117535	0.128878	0.140474	0.152301	0.164339	0.176571	0.188979	0.20155	0.214269	0.227125	0.240106	0.253201	0.266401	0.279696	0.29308	0.306544	0.32008	0.333682	0.347344	0.361059	0.374822	0.388628	0.40247	0.416345	0.430246	0.444171	0.458112	0.472068	0.486032	0.5	0.513968	0.527932	0.541888	0.555829	0.569754	0.583655	0.59753	0.611372	0.625178	0.638941	0.652656	0.666318	0.67992	0.693456	0.70692	0.720304	0.733599	0.746799	0.759894	0.772875	0.785731	0.79845	0.811021	0.823429	0.835661	0.847699	0.859526	0.871122	0.882465	0.893529	0.904289	0.914714	0.924769	0.934416	0.943615	0.952316	0.960469	0.968015	0.974892	0.981035	0.986376	0.99085	0.994407	0.997023	0.998726	0.999627	0.999951	0.999999	1	1	";
"2.1e-15	1.87821e-06	0.000103006	0.00063316	0.00192884	0.00418022	0.0074457	0.0117031	0.0168895	0.0229257	0.0297288	0.0372195	0.0453245	0.0539777	0.0631204	0.0727005	0.0826723	0.0929953	0.103634	0.114557	0.125737	0.137148	0.14877	0.160583	0.172569	0.184712	0.196999	0.209418	0.221956	0.234603	0.247351	0.260189	0.273111	0.286108	0.299175	0.312305	0.325491	0.33873	0.352015	0.365342	0.378706	0.392103	0.405529	0.41898	0.432451	0.44594	0.459443	0.472957	0.486477	0.5	0.513523	0.527043	0.540557	0.55406	0.567549	0.58102	0.594471	0.607897	0.621294	0.634658	0.647985	0.66127	0.674509	0.687695	0.700825	0.713892	0.726889	0.739811	0.752649	0.765397	0.778044	0.790582	0.803001	0.815288	0.827431	0.839417	0.85123	0.862852	0.874263	0.885443	0.896366	0.907005	0.917328	0.927299	0.93688	0.946022	0.954676	0.96278	0.970271	0.977074	0.98311	0.988297	0.992554	0.99582	0.998071	0.999367	0.999897	0.999998	1	1	";
"7.62e-14	5.82937e-06	0.000198185	0.00101604	0.0027958	0.00566872	0.00962918	0.0146044	0.0204962	0.0272025	0.0346267	0.0426817	0.0512907	0.0603867	0.0699118	0.0798159	0.0900556	0.100593	0.111397	0.122437	0.13369	0.145134	0.156749	0.168519	0.180428	0.192464	0.204615	0.21687	0.22922	0.241655	0.254169	0.266754	0.279404	0.292113	0.304875	0.317685	0.33054	0.343434	0.356364	0.369326	0.382316	0.395331	0.408369	0.421425	0.434497	0.447582	0.460677	0.473781	0.486889	0.5	0.513111	0.526219	0.539323	0.552418	0.565503	0.578575	0.591631	0.604669	0.617684	0.630674	0.643636	0.656566	0.66946	0.682315	0.695125	0.707887	0.720596	0.733246	0.745831	0.758345	0.77078	0.78313	0.795385	0.807536	0.819572	0.831481	0.843251	0.854866	0.86631	0.877563	0.888603	0.899407	0.909944	0.920184	0.930088	0.939613	0.948709	0.957318	0.965373	0.972797	0.979504	0.985396	0.990371	0.994331	0.997204	0.998984	0.999802	0.999994	1	1	";
"1.8031e-12	1.581e-05	0.000354262	0.00155021	0.00389915	0.00745212	0.0121352	0.0178285	0.0244047	0.0317445	0.0397428	0.0483088	0.0573652	0.0668466	0.0766975	0.086871	0.0973271	0.108032	0.118955	0.130074	0.141364	0.152808	0.16439	0.176094	0.187909	0.199823	0.211826	0.22391	0.236067	0.248291	0.260574	0.272911	0.285297	0.297727	0.310198	0.322705	0.335245	0.347814	0.36041	0.37303	0.38567	0.398329	0.411004	0.423692	0.436393	0.449103	0.461821	0.474544	0.487271	0.5	0.512729	0.525456	0.538179	0.550897	0.563607	0.576308	0.588996	0.601671	0.61433	0.62697	0.63959	0.652186	0.664755	0.677295	0.689802	0.702273	0.714703	0.727089	0.739426	0.751709	0.763933	0.77609	0.788174	0.800177	0.812091	0.823906	0.83561	0.847192	0.858636	0.869926	0.881045	0.891968	0.902673	0.913129	0.923302	0.933153	0.942635	0.951691	0.960257	0.968255	0.975595	0.982171	0.987865	0.992548	0.996101	0.99845	0.999646	0.999984	1	1	";
"2.94709e-11	3.80644e-05	0.000594002	0.00226223	0.00525519	0.00952979	0.0149454	0.0213417	0.0285691	0.0364978	0.0450183	0.0540399	0.0634875	0.0732988	0.0834224	0.0938151	0.104441	0.11527	0.126276	0.137437	0.148735	0.160154	0.17168	0.183301	0.195006	0.206787	0.218636	0.230546	0.242509	0.254522	0.266579	0.278675	0.290807	0.302971	0.315164	0.327383	0.339626	0.351889	0.364171	0.37647	0.388784	0.40111	0.413448	0.425795	0.43815	0.450512	0.46288	0.475251	0.487625	0.5	0.512375	0.524749	0.53712	0.549488	0.56185	0.574205	0.586552	0.59889	0.611216	0.62353	0.635829	0.648111	0.660374	0.672617	0.684836	0.697029	0.709193	0.721325	0.733421	0.745478	0.757491	0.769454	0.781364	0.793213	0.804994	0.816699	0.82832	0.839846	0.851265	0.862563	0.873724	0.88473	0.895559	0.906185	0.916578	0.926701	0.936513	0.94596	0.954982	0.963502	0.971431	0.978658	0.985055	0.99047	0.994745	0.997738	0.999406	0.999962	1	1	";
"3.47153e-10	8.24954e-05	0.000941921	0.00317416	0.00687146	0.0118912	0.0180327	0.0251039	0.0329406	0.0414078	0.0503963	0.0598182	0.0696025	0.0796917	0.0900389	0.100606	0.11136	0.122276	0.13333	0.144506	0.155787	0.167159	0.178612	0.190136	0.201722	0.213363	0.225053	0.236786	0.248558	0.260364	0.272201	0.284064	0.295953	0.307862	0.319792	0.331739	0.343701	0.355677	0.367665	0.379664	0.391672	0.403689	0.415713	0.427743	0.439778	0.451818	0.46386	0.475906	0.487952	0.5	0.512048	0.524094	0.53614	0.548182	0.560222	0.572257	0.584287	0.596311	0.608328	0.620336	0.632335	0.644323	0.656299	0.668261	0.680208	0.692138	0.704047	0.715936	0.727799	0.739636	0.751442	0.763214	0.774947	0.786637	0.798278	0.809864	0.821388	0.832841	0.844213	0.855494	0.86667	0.877724	0.88864	0.899394	0.909961	0.920308	0.930397	0.940182	0.949604	0.958592	0.967059	0.974896	0.981967	0.988109	0.993129	0.996826	0.999058	0.999918	1	1	";
"3.06154e-09	0.000162935	0.0014223	0.00430184	0.00874648	0.0145172	0.0213636	0.0290715	0.0374691	0.0464217	0.0558236	0.0655921	0.0756618	0.0859807	0.0965071	0.107207	0.118054	0.129024	0.1401	0.151266	0.162509	0.173819	0.185185	0.196602	0.208061	0.219558	0.231087	0.242645	0.254228	0.265832	0.277456	0.289097	0.300752	0.31242	0.3241	0.33579	0.347489	0.359195	0.370908	0.382627	0.394351	0.40608	0.417812	0.429548	0.441286	0.453026	0.464768	0.476511	0.488255	0.5	0.511745	0.523489	0.535232	0.546974	0.558714	0.570452	0.582188	0.59392	0.605649	0.617373	0.629092	0.640805	0.652511	0.66421	0.6759	0.68758	0.699248	0.710903	0.722544	0.734168	0.745772	0.757355	0.768913	0.780442	0.791939	0.803398	0.814815	0.826181	0.837491	0.848734	0.8599	0.870976	0.881946	0.892793	0.903493	0.914019	0.924338	0.934408	0.944176	0.953578	0.962531	0.970929	0.978636	0.985483	0.991254	0.995698	0.998578	0.999837	1	1	";
"2.0906e-08	0.000296489	0.00205687	0.00565353	0.0108701	0.0173816	0.0249	0.0331989	0.0421056	0.0514896	0.0612517	0.0713159	0.0816234	0.0921283	0.102794	0.113593	0.1245	0.135498	0.146572	0.157708	0.168897	0.180131	0.191401	0.202703	0.214031	0.225382	0.236751	0.248136	0.259534	0.270944	0.282363	0.29379	0.305224	0.316664	0.328108	0.339556	0.351007	0.362461	0.373917	0.385375	0.396834	0.408295	0.419756	0.431218	0.442681	0.454145	0.465608	0.477072	0.488536	0.5	0.511464	0.522928	0.534392	0.545855	0.557319	0.568782	0.580244	0.591705	0.603166	0.614625	0.626083	0.637539	0.648993	0.660444	0.671892	0.683336	0.694776	0.70621	0.717637	0.729056	0.740466	0.751864	0.763249	0.774618	0.785969	0.797297	0.808599	0.819869	0.831103	0.842292	0.853428	0.864502	0.8755	0.886407	0.897206	0.907872	0.918377	0.928684	0.938748	0.94851	0.957894	0.966801	0.9751	0.982618	0.98913	0.994346	0.997943	0.999704	1	1	";
"1.13877e-07	0.000501901	0.00286237	0.00722904	0.0132242	0.0204522	0.028601	0.0374404	0.0468028	0.0565653	0.0666369	0.0769496	0.0874516	0.0981035	0.108874	0.11974	0.130682	0.141685	0.152737	0.163828	0.17495	0.186098	0.197265	0.208448	0.219643	0.230847	0.242058	0.253275	0.264494	0.275716	0.28694	0.298164	0.309388	0.320611	0.331833	0.343054	0.354273	0.365491	0.376707	0.387922	0.399135	0.410346	0.421556	0.432765	0.443973	0.455179	0.466385	0.477591	0.488795	0.5	0.511205	0.522409	0.533615	0.544821	0.556027	0.567235	0.578444	0.589654	0.600865	0.612078	0.623293	0.634509	0.645727	0.656946	0.668167	0.679389	0.690612	0.701836	0.71306	0.724284	0.735506	0.746725	0.757942	0.769153	0.780357	0.791552	0.802735	0.813902	0.82505	0.836172	0.847263	0.858315	0.869318	0.88026	0.891126	0.901897	0.912548	0.92305	0.933363	0.943435	0.953197	0.96256	0.971399	0.979548	0.986776	0.992771	0.997138	0.999498	1	1	";
"5.07993e-07	0.000797261	0.0038485	0.00901934	0.0157833	0.0236924	0.0324236	0.041751	0.0515161	0.0616063	0.0719401	0.0824582	0.093116	0.10388	0.114726	0.125633	0.136587	0.147576	0.158591	0.169624	0.180671	0.191725	0.202784	0.213846	0.224907	0.235967	0.247024	0.258076	0.269124	0.280166	0.291203	0.302234	0.313259	0.324279	0.335292	0.3463	0.357303	0.3683	0.379293	0.390281	0.401265	0.412245	0.423222	0.434196	0.445167	0.456137	0.467104	0.47807	0.489035	0.5	0.510965	0.52193	0.532896	0.543863	0.554833	0.565804	0.576778	0.587755	0.598735	0.609719	0.620707	0.6317	0.642697	0.6537	0.664708	0.675721	0.686741	0.697766	0.708797	0.719834	0.730876	0.741924	0.752976	0.764033	0.775093	0.786154	0.797216	0.808275	0.819329	0.830376	0.841409	0.852424	0.863413	0.874367	0.885274	0.89612	0.906884	0.917542	0.92806	0.938394	0.948484	0.958249	0.967576	0.976308	0.984217	0.990981	0.996151	0.999203	0.999999	1	";
"1.89949e-06	0.00119769	0.00501661	0.0110069	0.0185155	0.0270622	0.0363244	0.0460867	0.0562034	0.0665737	0.0771265	0.0878112	0.0985906	0.109438	0.120332	0.131259	0.142207	0.153167	0.164132	0.175098	0.186061	0.197018	0.207968	0.218907	0.229837	0.240755	0.251661	0.262556	0.273439	0.28431	0.29517	0.306018	0.316856	0.327684	0.338502	0.349311	0.360111	0.370903	0.381687	0.392465	0.403237	0.414002	0.424763	0.435519	0.446272	0.457021	0.467768	0.478513	0.489257	0.5	0.510743	0.521487	0.532232	0.542979	0.553728	0.564481	0.575237	0.585998	0.596763	0.607535	0.618313	0.629097	0.639889	0.650689	0.661498	0.672316	0.683144	0.693982	0.70483	0.71569	0.726561	0.737444	0.748339	0.759245	0.770163	0.781093	0.792032	0.802982	0.813939	0.824902	0.835868	0.846833	0.857793	0.868741	0.879668	0.890562	0.901409	0.912189	0.922873	0.933426	0.943797	0.953913	0.963676	0.972938	0.981484	0.988993	0.994983	0.998802	0.999998	1	";
"6.07722e-06	0.00171376	0.00635966	0.0131668	0.0213849	0.03052	0.0402602	0.0504057	0.0608258	0.0714324	0.0821653	0.0929824	0.103854	0.114758	0.12568	0.136608	0.147535	0.158453	0.16936	0.180253	0.191128	0.201985	0.212824	0.223643	0.234442	0.245223	0.255984	0.266728	0.277453	0.288162	0.298854	0.309531	0.320193	0.330841	0.341476	0.352099	0.36271	0.373311	0.383902	0.394485	0.405059	0.415626	0.426187	0.436742	0.447292	0.457838	0.468382	0.478922	0.489462	0.5	0.510538	0.521078	0.531618	0.542162	0.552708	0.563258	0.573813	0.584374	0.594941	0.605515	0.616098	0.626689	0.63729	0.647901	0.658524	0.669159	0.679807	0.690469	0.701146	0.711838	0.722547	0.733272	0.744016	0.754777	0.765558	0.776357	0.787176	0.798015	0.808872	0.819747	0.83064	0.841547	0.852465	0.863392	0.87432	0.885242	0.896146	0.907018	0.917835	0.928568	0.939174	0.949594	0.95974	0.96948	0.978615	0.986833	0.99364	0.998286	0.999994	1	";
"1.69416e-05	0.0023511	0.00786367	0.0154696	0.0243533	0.0340247	0.0441903	0.0546698	0.0653486	0.0761521	0.0870305	0.0979501	0.108888	0.119828	0.130759	0.141674	0.152568	0.163436	0.174278	0.185092	0.195877	0.206634	0.217362	0.228063	0.238737	0.249384	0.260007	0.270607	0.281183	0.291738	0.302272	0.312788	0.323285	0.333765	0.344229	0.354679	0.365114	0.375538	0.385949	0.396351	0.406742	0.417125	0.427501	0.43787	0.448234	0.458592	0.468948	0.4793	0.48965	0.5	0.51035	0.5207	0.531052	0.541408	0.551766	0.56213	0.572499	0.582875	0.593258	0.603649	0.614051	0.624462	0.634886	0.645321	0.655771	0.666235	0.676715	0.687212	0.697728	0.708262	0.718817	0.729393	0.739993	0.750616	0.761263	0.771937	0.782638	0.793366	0.804123	0.814908	0.825722	0.836564	0.847432	0.858326	0.869241	0.880172	0.891112	0.90205	0.91297	0.923848	0.934651	0.94533	0.95581	0.965975	0.975647	0.98453	0.992136	0.997649	0.999983	1	";
"4.18179e-05	0.00311144	0.00951032	0.0178839	0.0273838	0.0375382	0.0480787	0.0588461	0.069743	0.0807081	0.0917017	0.102698	0.113681	0.124639	0.135565	0.146455	0.157307	0.168119	0.178891	0.189623	0.200317	0.210974	0.221594	0.23218	0.242732	0.253253	0.263744	0.274206	0.284642	0.295052	0.305438	0.315802	0.326145	0.336468	0.346773	0.357062	0.367335	0.377593	0.387839	0.398072	0.408295	0.418508	0.428713	0.43891	0.449101	0.459287	0.469469	0.479648	0.489824	0.5	0.510176	0.520352	0.530531	0.540713	0.550899	0.56109	0.571287	0.581492	0.591705	0.601928	0.612161	0.622407	0.632665	0.642938	0.653227	0.663532	0.673855	0.684198	0.694562	0.704948	0.715358	0.725794	0.736256	0.746747	0.757268	0.76782	0.778406	0.789026	0.799683	0.810377	0.821109	0.831881	0.842693	0.853545	0.864435	0.875361	0.886319	0.897302	0.908298	0.919292	0.930257	0.941154	0.951921	0.962462	0.972616	0.982116	0.99049	0.996889	0.999958	1	";
"9.2704e-05	0.00399449	0.0112804	0.0203804	0.0304437	0.0410287	0.0518959	0.062909	0.0739876	0.0850831	0.0961658	0.107217	0.118227	0.129188	0.140097	0.150953	0.161756	0.172507	0.183206	0.193857	0.20446	0.215018	0.225534	0.236009	0.246445	0.256844	0.26721	0.277543	0.287845	0.298119	0.308367	0.318589	0.328788	0.338966	0.349123	0.359262	0.369383	0.379489	0.389581	0.399659	0.409726	0.419783	0.42983	0.439869	0.449901	0.459928	0.46995	0.479968	0.489985	0.5	0.510015	0.520032	0.53005	0.540072	0.550099	0.560131	0.57017	0.580217	0.590274	0.600341	0.610419	0.620511	0.630617	0.640738	0.650877	0.661034	0.671212	0.681411	0.691633	0.701881	0.712155	0.722457	0.73279	0.743156	0.753555	0.763991	0.774466	0.784982	0.79554	0.806143	0.816794	0.827493	0.838244	0.849047	0.859903	0.870812	0.881773	0.892783	0.903834	0.914917	0.926012	0.937091	0.948104	0.958971	0.969556	0.97962	0.98872	0.996006	0.999907	1	";
"0.000186899	0.00500001	0.0131565	0.0229345	0.0335071	0.0444721	0.0556214	0.0668417	0.0780695	0.0892683	0.100417	0.111506	0.122527	0.133479	0.144362	0.155177	0.165927	0.176613	0.187239	0.197807	0.208321	0.218783	0.229197	0.239565	0.24989	0.260175	0.270422	0.280633	0.290811	0.300957	0.311075	0.321165	0.33123	0.341272	0.351292	0.361292	0.371273	0.381238	0.391187	0.401123	0.411045	0.420957	0.430859	0.440752	0.450637	0.460517	0.470392	0.480263	0.490132	0.5	0.509868	0.519737	0.529608	0.539483	0.549363	0.559248	0.569141	0.579043	0.588955	0.598877	0.608813	0.618762	0.628727	0.638708	0.648708	0.658728	0.66877	0.678835	0.688925	0.699043	0.709189	0.719367	0.729578	0.739825	0.75011	0.760435	0.770803	0.781217	0.791679	0.802193	0.812761	0.823387	0.834073	0.844823	0.855638	0.866521	0.877473	0.888494	0.899583	0.910732	0.921931	0.933158	0.944379	0.955528	0.966493	0.977066	0.986844	0.995	0.999813	1	";
"0.000346498	0.00612906	0.0151254	0.025528	0.0365563	0.0478531	0.0592433	0.0706363	0.0819845	0.0932628	0.104459	0.115568	0.126589	0.137522	0.148372	0.159141	0.169833	0.180453	0.191005	0.201492	0.211918	0.222288	0.232604	0.24287	0.253089	0.263265	0.2734	0.283496	0.293557	0.303584	0.31358	0.323547	0.333487	0.343403	0.353295	0.363167	0.373018	0.382852	0.39267	0.402472	0.412262	0.42204	0.431807	0.441566	0.451316	0.461061	0.4708	0.480535	0.490268	0.5	0.509732	0.519465	0.5292	0.538939	0.548684	0.558434	0.568193	0.57796	0.587738	0.597528	0.60733	0.617148	0.626982	0.636833	0.646705	0.656597	0.666513	0.676453	0.68642	0.696416	0.706443	0.716504	0.7266	0.736735	0.746911	0.75713	0.767396	0.777712	0.788082	0.798508	0.808995	0.819547	0.830167	0.840859	0.851628	0.862478	0.873411	0.884432	0.895541	0.906737	0.918016	0.929364	0.940757	0.952147	0.963444	0.974472	0.984875	0.993871	0.999654	1	";
"0.000596519	0.00738404	0.0171779	0.0281492	0.0395807	0.0511645	0.062758	0.0742927	0.0857359	0.0970733	0.1083	0.119416	0.130426	0.141333	0.152143	0.162862	0.173495	0.184048	0.194525	0.204932	0.215273	0.225553	0.235775	0.245944	0.256063	0.266136	0.276164	0.286153	0.296103	0.306018	0.315901	0.325753	0.335577	0.345375	0.355149	0.3649	0.374632	0.384344	0.39404	0.40372	0.413386	0.42304	0.432683	0.442317	0.451943	0.461562	0.471176	0.480786	0.490394	0.5	0.509606	0.519214	0.528824	0.538438	0.548057	0.557683	0.567317	0.57696	0.586614	0.59628	0.60596	0.615656	0.625368	0.6351	0.644851	0.654625	0.664423	0.674247	0.684099	0.693982	0.703897	0.713847	0.723836	0.733864	0.743937	0.754056	0.764225	0.774447	0.784727	0.795068	0.805475	0.815952	0.826505	0.837138	0.847857	0.858667	0.869574	0.880584	0.8917	0.902927	0.914264	0.925707	0.937242	0.948835	0.960419	0.971851	0.982822	0.992616	0.999403	1	";
"0.000961896	0.00876736	0.0193077	0.030791	0.0425758	0.0544048	0.0661676	0.0778163	0.0893323	0.100711	0.111954	0.123066	0.134056	0.14493	0.155696	0.166362	0.176934	0.187419	0.197823	0.208151	0.218409	0.228602	0.238735	0.248811	0.258834	0.268809	0.278737	0.288624	0.298471	0.308281	0.318057	0.327802	0.337517	0.347205	0.356868	0.366508	0.376127	0.385727	0.395309	0.404876	0.414428	0.423967	0.433495	0.443014	0.452524	0.462027	0.471525	0.481019	0.49051	0.5	0.50949	0.518981	0.528475	0.537973	0.547476	0.556986	0.566505	0.576033	0.585572	0.595124	0.604691	0.614273	0.623873	0.633492	0.643132	0.652795	0.662483	0.672198	0.681943	0.691719	0.701529	0.711376	0.721263	0.731191	0.741166	0.751189	0.761265	0.771398	0.781591	0.791849	0.802177	0.812581	0.823066	0.833638	0.844304	0.85507	0.865944	0.876934	0.888046	0.899289	0.910668	0.922184	0.933832	0.945595	0.957424	0.969209	0.980692	0.991233	0.999038	1	";
"0.00146395	0.0102794	0.0215092	0.0334485	0.0455394	0.0575754	0.0694769	0.0812153	0.0927844	0.104188	0.115435	0.126535	0.137497	0.148333	0.159052	0.169662	0.180171	0.190588	0.200919	0.211171	0.221349	0.231458	0.241504	0.251491	0.261424	0.271305	0.281139	0.290929	0.300679	0.31039	0.320066	0.32971	0.339323	0.348908	0.358468	0.368004	0.377519	0.387013	0.39649	0.40595	0.415395	0.424828	0.434249	0.44366	0.453063	0.462459	0.471849	0.481235	0.490618	0.5	0.509382	0.518765	0.528151	0.537541	0.546937	0.55634	0.565751	0.575172	0.584605	0.59405	0.60351	0.612987	0.622481	0.631996	0.641532	0.651092	0.660677	0.67029	0.679934	0.68961	0.699321	0.709071	0.718861	0.728695	0.738576	0.748509	0.758496	0.768542	0.778651	0.788829	0.799081	0.809412	0.819829	0.830338	0.840948	0.851667	0.862503	0.873465	0.884565	0.895812	0.907216	0.918785	0.930523	0.942425	0.954461	0.966552	0.978491	0.989721	0.998536	1	";
"0.00211715	0.0119162	0.0237752	0.0361161	0.0484694	0.0606778	0.0726906	0.084497	0.0961023	0.107518	0.118758	0.129837	0.140766	0.151559	0.162227	0.17278	0.183227	0.193576	0.203836	0.214012	0.224112	0.234141	0.244104	0.254006	0.263851	0.273644	0.283388	0.293087	0.302744	0.312362	0.321944	0.331492	0.34101	0.350499	0.359962	0.369401	0.378817	0.388213	0.397591	0.406952	0.416298	0.425631	0.434952	0.444263	0.453566	0.462861	0.472151	0.481436	0.490719	0.5	0.509281	0.518564	0.527849	0.537139	0.546434	0.555737	0.565048	0.574369	0.583702	0.593048	0.602409	0.611787	0.621183	0.630599	0.640038	0.649501	0.65899	0.668508	0.678056	0.687638	0.697256	0.706913	0.716612	0.726356	0.736149	0.745994	0.755896	0.765859	0.775888	0.785988	0.796164	0.806424	0.816773	0.82722	0.837773	0.848441	0.859234	0.870163	0.881242	0.892482	0.903898	0.915503	0.927309	0.939322	0.951531	0.963884	0.976225	0.988084	0.997883	1	";
"0.00292683	0.0136678	0.0260945	0.0387858	0.0513612	0.063711	0.0758109	0.0876664	0.0992931	0.11071	0.121935	0.132985	0.143876	0.154623	0.165238	0.175733	0.186117	0.196399	0.206588	0.216691	0.226715	0.236666	0.246549	0.256369	0.266132	0.27584	0.285499	0.295111	0.304681	0.314211	0.323704	0.333163	0.34259	0.351989	0.36136	0.370707	0.380032	0.389336	0.398621	0.407889	0.417142	0.426382	0.43561	0.444827	0.454036	0.463237	0.472433	0.481624	0.490813	0.5	0.509187	0.518376	0.527567	0.536763	0.545964	0.555173	0.56439	0.573618	0.582858	0.592111	0.601379	0.610664	0.619968	0.629293	0.63864	0.648011	0.65741	0.666837	0.676296	0.685789	0.695319	0.704889	0.714501	0.72416	0.733868	0.743631	0.753451	0.763334	0.773285	0.783309	0.793412	0.803601	0.813883	0.824267	0.834762	0.845377	0.856124	0.867015	0.878065	0.88929	0.900707	0.912334	0.924189	0.936289	0.948639	0.961214	0.973905	0.986332	0.997073	1	";
"0.00388832	0.0155181	0.0284516	0.0414452	0.0542065	0.0666701	0.078836	0.0907244	0.10236	0.113768	0.12497	0.135987	0.146837	0.157535	0.168096	0.178531	0.188852	0.199068	0.209188	0.21922	0.229171	0.239046	0.248852	0.258595	0.268278	0.277906	0.287484	0.297014	0.306501	0.315947	0.325356	0.334731	0.344073	0.353386	0.362672	0.371933	0.381171	0.390388	0.399586	0.408767	0.417933	0.427085	0.436225	0.445355	0.454476	0.463589	0.472697	0.4818	0.490901	0.5	0.509099	0.5182	0.527303	0.536411	0.545524	0.554645	0.563775	0.572915	0.582067	0.591233	0.600414	0.609612	0.618829	0.628067	0.637328	0.646614	0.655927	0.665269	0.674644	0.684053	0.693499	0.702986	0.712516	0.722094	0.731722	0.741405	0.751148	0.760954	0.770829	0.78078	0.790812	0.800932	0.811148	0.821469	0.831904	0.842465	0.853163	0.864013	0.87503	0.886232	0.89764	0.909276	0.921164	0.93333	0.945793	0.958555	0.971548	0.984482	0.996112	1	";
"0.00498753	0.0174448	0.0308264	0.0440785	0.0569934	0.0695466	0.0817604	0.093668	0.105302	0.116693	0.127867	0.138846	0.149651	0.160299	0.170805	0.181181	0.19144	0.201591	0.211644	0.221607	0.231486	0.24129	0.251022	0.26069	0.270297	0.279849	0.28935	0.298802	0.308211	0.317578	0.326908	0.336202	0.345465	0.354697	0.363902	0.373082	0.382239	0.391374	0.400491	0.40959	0.418674	0.427744	0.436802	0.44585	0.454888	0.463919	0.472945	0.481966	0.490983	0.5	0.509017	0.518034	0.527055	0.536081	0.545112	0.55415	0.563198	0.572256	0.581326	0.59041	0.599509	0.608626	0.617761	0.626918	0.636098	0.645303	0.654535	0.663798	0.673092	0.682422	0.691789	0.701198	0.71065	0.720151	0.729703	0.73931	0.748978	0.75871	0.768514	0.778393	0.788356	0.798409	0.80856	0.818819	0.829195	0.839701	0.850349	0.861154	0.872133	0.883307	0.894698	0.906332	0.91824	0.930453	0.943007	0.955921	0.969174	0.982555	0.995012	1	";
"0.00620263	0.0194212	0.0331955	0.0466666	0.0597066	0.0723287	0.0845751	0.0964904	0.108115	0.119482	0.130623	0.141562	0.152321	0.162918	0.173368	0.183686	0.193883	0.203972	0.213959	0.223855	0.233667	0.243401	0.253063	0.26266	0.272196	0.281675	0.291102	0.300481	0.309815	0.319108	0.328363	0.337582	0.346769	0.355926	0.365055	0.374159	0.383239	0.392299	0.401339	0.410361	0.419368	0.428361	0.437342	0.446313	0.455274	0.464228	0.473176	0.48212	0.491061	0.5	0.508939	0.51788	0.526824	0.535772	0.544726	0.553687	0.562658	0.571639	0.580632	0.589639	0.598661	0.607701	0.616761	0.625841	0.634945	0.644074	0.653231	0.662418	0.671637	0.680892	0.690185	0.699519	0.708898	0.718325	0.727804	0.73734	0.746937	0.756599	0.766333	0.776145	0.786041	0.796028	0.806117	0.816314	0.826632	0.837082	0.847679	0.858438	0.869377	0.880518	0.891885	0.90351	0.915425	0.927671	0.940293	0.953333	0.966804	0.980579	0.993797	1	";
"0.00750652	0.0214181	0.035534	0.0491888	0.0623294	0.0750028	0.0872691	0.0991829	0.110791	0.122131	0.133236	0.144133	0.154844	0.165389	0.175785	0.186046	0.196184	0.206211	0.216136	0.225968	0.235714	0.245382	0.254978	0.264507	0.273975	0.283385	0.292743	0.302053	0.311317	0.32054	0.329725	0.338874	0.34799	0.357075	0.366133	0.375166	0.384175	0.393163	0.402131	0.411082	0.420017	0.428938	0.437847	0.446746	0.455635	0.464517	0.473393	0.482264	0.491133	0.5	0.508867	0.517736	0.526607	0.535483	0.544365	0.553254	0.562153	0.571062	0.579983	0.588918	0.597869	0.606837	0.615825	0.624834	0.633867	0.642925	0.65201	0.661126	0.670275	0.67946	0.688683	0.697947	0.707257	0.716615	0.726025	0.735493	0.745022	0.754618	0.764286	0.774032	0.783864	0.793789	0.803816	0.813954	0.824215	0.834611	0.845156	0.855867	0.866764	0.877869	0.889209	0.900817	0.912731	0.924997	0.937671	0.950811	0.964466	0.978582	0.992493	1	";
"0.00886941	0.023406	0.0378169	0.0516248	0.0648448	0.077555	0.0898309	0.101736	0.113322	0.124632	0.135699	0.146552	0.157216	0.167711	0.178053	0.188259	0.19834	0.208308	0.218173	0.227944	0.237629	0.247235	0.256767	0.266233	0.275636	0.284982	0.294275	0.30352	0.312719	0.321876	0.330995	0.340077	0.349127	0.358147	0.367138	0.376104	0.385046	0.393967	0.402869	0.411753	0.420621	0.429475	0.438317	0.447148	0.455971	0.464785	0.473594	0.482399	0.4912	0.5	0.5088	0.517601	0.526406	0.535215	0.544029	0.552852	0.561683	0.570525	0.579379	0.588247	0.597131	0.606033	0.614954	0.623896	0.632862	0.641853	0.650873	0.659923	0.669005	0.678124	0.687281	0.69648	0.705725	0.715018	0.724364	0.733767	0.743233	0.752765	0.762371	0.772056	0.781827	0.791692	0.80166	0.811741	0.821947	0.832289	0.842784	0.853448	0.864301	0.875368	0.886678	0.898264	0.910169	0.922445	0.935155	0.948375	0.962183	0.976594	0.991131	1	";
"0.0102613	0.0253572	0.0400212	0.0539554	0.0672375	0.0799725	0.09225	0.104141	0.115702	0.126979	0.138008	0.148818	0.159435	0.169881	0.180172	0.190324	0.200351	0.210263	0.220071	0.229785	0.239412	0.248958	0.258432	0.267837	0.27718	0.286466	0.295699	0.304882	0.31402	0.323116	0.332173	0.341195	0.350183	0.35914	0.36807	0.376974	0.385854	0.394713	0.403553	0.412375	0.421181	0.429973	0.438753	0.447522	0.456282	0.465034	0.473781	0.482523	0.491262	0.5	0.508738	0.517477	0.526219	0.534966	0.543718	0.552478	0.561247	0.570027	0.578819	0.587625	0.596447	0.605287	0.614146	0.623026	0.63193	0.64086	0.649817	0.658805	0.667827	0.676884	0.68598	0.695118	0.704301	0.713534	0.72282	0.732163	0.741568	0.751042	0.760588	0.770215	0.779929	0.789737	0.799649	0.809676	0.819828	0.830119	0.840565	0.851182	0.861992	0.873021	0.884298	0.895859	0.90775	0.920027	0.932762	0.946045	0.959979	0.974643	0.989739	1	";
"0.0116541	0.0272468	0.042127	0.0561648	0.0694943	0.0822447	0.0945175	0.106391	0.117925	0.129168	0.140158	0.150926	0.161499	0.171897	0.182139	0.19224	0.202215	0.212075	0.22183	0.23149	0.241062	0.250553	0.259971	0.269321	0.278609	0.287838	0.297015	0.306141	0.315223	0.324262	0.333262	0.342226	0.351158	0.360058	0.368931	0.377777	0.386601	0.395402	0.404184	0.412949	0.421698	0.430432	0.439155	0.447866	0.456569	0.465264	0.473953	0.482638	0.49132	0.5	0.50868	0.517362	0.526047	0.534736	0.543431	0.552134	0.560845	0.569568	0.578302	0.587051	0.595816	0.604598	0.613399	0.622223	0.631069	0.639942	0.648842	0.657774	0.666738	0.675738	0.684777	0.693859	0.702985	0.712162	0.721391	0.730679	0.740029	0.749447	0.758938	0.76851	0.77817	0.787925	0.797785	0.80776	0.817861	0.828103	0.838501	0.849074	0.859842	0.870832	0.882075	0.893609	0.905482	0.917755	0.930506	0.943835	0.957873	0.972753	0.988346	1	";
"0.0130228	0.0290543	0.0441182	0.0582405	0.0716055	0.0843638	0.0966274	0.10848	0.119987	0.131196	0.142148	0.152876	0.163405	0.173758	0.183954	0.194008	0.203934	0.213745	0.22345	0.23306	0.242581	0.252022	0.261388	0.270687	0.279922	0.2891	0.298224	0.307299	0.316328	0.325315	0.334263	0.343175	0.352053	0.360901	0.369721	0.378515	0.387286	0.396035	0.404764	0.413476	0.422172	0.430854	0.439524	0.448183	0.456833	0.465475	0.474112	0.482743	0.491372	0.5	0.508628	0.517257	0.525888	0.534525	0.543167	0.551817	0.560476	0.569146	0.577828	0.586524	0.595236	0.603965	0.612714	0.621485	0.630279	0.639099	0.647947	0.656825	0.665737	0.674685	0.683672	0.692701	0.701776	0.7109	0.720078	0.729313	0.738612	0.747978	0.757419	0.76694	0.77655	0.786255	0.796066	0.805992	0.816046	0.826242	0.836595	0.847124	0.857852	0.868804	0.880013	0.89152	0.903373	0.915636	0.928395	0.94176	0.955882	0.970946	0.986977	1	";
"0.0143467	0.0307636	0.0459831	0.0601737	0.0735647	0.0863253	0.0985767	0.110408	0.121886	0.133062	0.143978	0.154667	0.165155	0.175466	0.185619	0.195629	0.20551	0.215275	0.224934	0.234497	0.243972	0.253365	0.262685	0.271936	0.281124	0.290254	0.29933	0.308357	0.317338	0.326277	0.335177	0.344041	0.352871	0.361671	0.370443	0.379189	0.387912	0.396612	0.405294	0.413958	0.422605	0.431239	0.439861	0.448472	0.457073	0.465668	0.474256	0.48284	0.491421	0.5	0.508579	0.51716	0.525744	0.534332	0.542927	0.551528	0.560139	0.568761	0.577395	0.586042	0.594706	0.603388	0.612088	0.620811	0.629557	0.638329	0.647129	0.655959	0.664823	0.673723	0.682662	0.691643	0.70067	0.709746	0.718876	0.728064	0.737315	0.746635	0.756028	0.765503	0.775066	0.784725	0.79449	0.804371	0.814381	0.824534	0.834845	0.845333	0.856022	0.866938	0.878114	0.889592	0.901423	0.913675	0.926435	0.939826	0.954017	0.969236	0.985653	1	";
"0.0156093	0.0323634	0.0477142	0.0619598	0.0753692	0.0881279	0.100365	0.112174	0.123624	0.134769	0.145651	0.156303	0.166753	0.177025	0.187137	0.197106	0.206946	0.216669	0.226286	0.235806	0.245238	0.254588	0.263864	0.273072	0.282217	0.291303	0.300336	0.309319	0.318257	0.327152	0.336008	0.344828	0.353615	0.362371	0.371099	0.379802	0.38848	0.397137	0.405775	0.414395	0.422999	0.431589	0.440167	0.448734	0.457292	0.465843	0.474387	0.482927	0.491464	0.5	0.508536	0.517073	0.525613	0.534157	0.542708	0.551266	0.559833	0.568411	0.577001	0.585605	0.594225	0.602863	0.61152	0.620198	0.628901	0.637629	0.646385	0.655172	0.663992	0.672848	0.681743	0.690681	0.699664	0.708697	0.717783	0.726928	0.736136	0.745412	0.754762	0.764194	0.773714	0.783331	0.793054	0.802894	0.812863	0.822975	0.833247	0.843697	0.854349	0.865231	0.876376	0.887826	0.899635	0.911872	0.924631	0.93804	0.952286	0.967637	0.984391	1	";
"0.0167987	0.0338465	0.0493079	0.0635975	0.0770195	0.0897734	0.101995	0.113782	0.125205	0.13632	0.14717	0.157788	0.168203	0.178439	0.188514	0.198445	0.208247	0.217932	0.22751	0.236991	0.246384	0.255695	0.264932	0.2741	0.283206	0.292253	0.301246	0.31019	0.319088	0.327943	0.33676	0.34554	0.354287	0.363004	0.371693	0.380355	0.388994	0.397612	0.40621	0.41479	0.423355	0.431905	0.440444	0.448971	0.45749	0.466001	0.474506	0.483006	0.491504	0.5	0.508496	0.516994	0.525494	0.533999	0.54251	0.551029	0.559556	0.568095	0.576645	0.58521	0.59379	0.602388	0.611006	0.619645	0.628307	0.636996	0.645713	0.65446	0.66324	0.672057	0.680912	0.68981	0.698754	0.707747	0.716794	0.7259	0.735068	0.744305	0.753616	0.763009	0.77249	0.782068	0.791753	0.801555	0.811486	0.821561	0.831797	0.842212	0.85283	0.86368	0.874795	0.886218	0.898005	0.910227	0.922981	0.936402	0.950692	0.966154	0.983201	1	";
"0.0179069	0.0352097	0.0507641	0.0650889	0.0785189	0.091266	0.103472	0.115237	0.126636	0.137723	0.148542	0.159129	0.169512	0.179714	0.189755	0.199653	0.20942	0.21907	0.228613	0.238059	0.247416	0.256692	0.265894	0.275026	0.284096	0.293107	0.302065	0.310973	0.319835	0.328655	0.337436	0.346181	0.354892	0.363573	0.372226	0.380853	0.389456	0.398038	0.406601	0.415146	0.423675	0.43219	0.440692	0.449184	0.457667	0.466143	0.474612	0.483077	0.491539	0.5	0.508461	0.516923	0.525388	0.533857	0.542333	0.550816	0.559308	0.56781	0.576325	0.584854	0.593399	0.601962	0.610544	0.619147	0.627774	0.636427	0.645108	0.653819	0.662564	0.671345	0.680165	0.689027	0.697935	0.706893	0.715904	0.724974	0.734106	0.743308	0.752584	0.761941	0.771387	0.78093	0.79058	0.800347	0.810245	0.820286	0.830488	0.840871	0.851458	0.862277	0.873364	0.884763	0.896528	0.908734	0.921481	0.934911	0.949236	0.96479	0.982093	1	";
"0.0189295	0.0364532	0.0520857	0.0664384	0.079873	0.092612	0.104803	0.116547	0.127922	0.138983	0.149775	0.160333	0.170687	0.180859	0.19087	0.200736	0.210472	0.22009	0.229602	0.239016	0.248342	0.257586	0.266755	0.275856	0.284894	0.293873	0.302798	0.311674	0.320505	0.329293	0.338041	0.346754	0.355434	0.364083	0.372704	0.381299	0.38987	0.39842	0.406951	0.415464	0.423961	0.432444	0.440915	0.449375	0.457826	0.46627	0.474708	0.483141	0.491571	0.5	0.508429	0.516859	0.525292	0.53373	0.542174	0.550625	0.559085	0.567556	0.576039	0.584536	0.593049	0.60158	0.61013	0.618701	0.627296	0.635917	0.644566	0.653246	0.661959	0.670707	0.679495	0.688326	0.697202	0.706127	0.715106	0.724144	0.733245	0.742414	0.751658	0.760984	0.770398	0.77991	0.789528	0.799264	0.80913	0.819141	0.829313	0.839667	0.850225	0.861017	0.872078	0.883453	0.895197	0.907388	0.920127	0.933562	0.947914	0.963547	0.98107	1	";
"0.0198651	0.0375797	0.0532776	0.0676523	0.081089	0.0938194	0.105995	0.117721	0.129073	0.140111	0.150878	0.16141	0.171737	0.181882	0.191865	0.201703	0.211411	0.221001	0.230485	0.23987	0.249167	0.258383	0.267524	0.276596	0.285605	0.294556	0.303453	0.3123	0.321102	0.329861	0.338581	0.347266	0.355917	0.364537	0.37313	0.381696	0.390239	0.398761	0.407263	0.415747	0.424216	0.432671	0.441113	0.449545	0.457968	0.466383	0.474793	0.483198	0.4916	0.5	0.5084	0.516802	0.525207	0.533617	0.542032	0.550455	0.558887	0.567329	0.575784	0.584253	0.592737	0.601239	0.609761	0.618304	0.62687	0.635463	0.644083	0.652734	0.661419	0.670139	0.678898	0.6877	0.696547	0.705444	0.714395	0.723404	0.732476	0.741617	0.750833	0.76013	0.769515	0.778999	0.788589	0.798297	0.808135	0.818118	0.828263	0.83859	0.849122	0.859889	0.870927	0.882279	0.894005	0.906181	0.918911	0.932348	0.946722	0.96242	0.980135	1	";
"0.0207145	0.0385937	0.0543464	0.0687387	0.0821756	0.0948971	0.107058	0.118766	0.130099	0.141115	0.151859	0.162368	0.172671	0.182791	0.19275	0.202563	0.212246	0.221811	0.231269	0.24063	0.249901	0.259091	0.268206	0.277253	0.286237	0.295162	0.304034	0.312856	0.321632	0.330366	0.339061	0.34772	0.356345	0.36494	0.373507	0.382049	0.390567	0.399063	0.40754	0.415999	0.424443	0.432872	0.44129	0.449696	0.458094	0.466484	0.474868	0.483248	0.491625	0.5	0.508375	0.516752	0.525132	0.533516	0.541906	0.550304	0.55871	0.567128	0.575557	0.584001	0.59246	0.600937	0.609433	0.617951	0.626493	0.63506	0.643655	0.65228	0.660939	0.669634	0.678368	0.687144	0.695966	0.704838	0.713763	0.722747	0.731794	0.740909	0.750099	0.75937	0.768731	0.778189	0.787754	0.797437	0.80725	0.817209	0.827329	0.837632	0.848141	0.858885	0.869901	0.881234	0.892942	0.905103	0.917824	0.931261	0.945654	0.961406	0.979285	1	";
"0.0214807	0.0395015	0.0553002	0.0697061	0.083142	0.0958547	0.108003	0.119694	0.131009	0.142005	0.152729	0.163217	0.173499	0.183597	0.193534	0.203325	0.212986	0.222528	0.231963	0.241301	0.25055	0.259718	0.268811	0.277835	0.286796	0.295698	0.304547	0.313347	0.322101	0.330812	0.339485	0.348121	0.356724	0.365297	0.373842	0.382361	0.390856	0.39933	0.407785	0.416222	0.424643	0.43305	0.441445	0.44983	0.458205	0.466573	0.474935	0.483292	0.491647	0.5	0.508353	0.516708	0.525065	0.533427	0.541795	0.55017	0.558555	0.56695	0.575357	0.583778	0.592215	0.60067	0.609144	0.617639	0.626158	0.634703	0.643276	0.651879	0.660515	0.669188	0.677899	0.686653	0.695453	0.704302	0.713204	0.722165	0.731189	0.740282	0.74945	0.758699	0.768037	0.777472	0.787014	0.796675	0.806466	0.816403	0.826501	0.836783	0.847271	0.857995	0.868991	0.880306	0.891997	0.904145	0.916858	0.930294	0.9447	0.960498	0.978519	1	";
"0.0221675	0.0403101	0.0561472	0.0705638	0.083998	0.0967022	0.108838	0.120515	0.131813	0.142792	0.153498	0.163967	0.174229	0.184309	0.194225	0.203997	0.213638	0.22316	0.232576	0.241894	0.251123	0.260271	0.269343	0.278348	0.287289	0.296171	0.305001	0.31378	0.322514	0.331206	0.339858	0.348475	0.357058	0.365611	0.374136	0.382636	0.391111	0.399566	0.408001	0.416418	0.424819	0.433207	0.441583	0.449947	0.458303	0.466651	0.474994	0.483332	0.491667	0.5	0.508333	0.516668	0.525006	0.533349	0.541697	0.550053	0.558417	0.566793	0.575181	0.583582	0.591999	0.600434	0.608889	0.617364	0.625864	0.634389	0.642942	0.651525	0.660142	0.668794	0.677486	0.68622	0.694999	0.703829	0.712711	0.721652	0.730657	0.739729	0.748877	0.758106	0.767424	0.77684	0.786362	0.796003	0.805775	0.815691	0.825771	0.836033	0.846502	0.857208	0.868187	0.879485	0.891162	0.903298	0.916002	0.929436	0.943853	0.95969	0.977833	1	";
"0.0227799	0.0410271	0.0568964	0.0713214	0.0847532	0.0974494	0.109574	0.121237	0.132521	0.143484	0.154174	0.164627	0.174872	0.184934	0.194834	0.204588	0.214211	0.223716	0.233114	0.242415	0.251626	0.260756	0.269812	0.278798	0.287722	0.296587	0.305399	0.314161	0.322877	0.331551	0.340186	0.348786	0.357352	0.365888	0.374395	0.382877	0.391336	0.399773	0.40819	0.41659	0.424975	0.433345	0.441703	0.450051	0.458389	0.46672	0.475045	0.483366	0.491684	0.5	0.508316	0.516634	0.524955	0.53328	0.541611	0.549949	0.558297	0.566655	0.575025	0.58341	0.59181	0.600227	0.608664	0.617123	0.625605	0.634112	0.642648	0.651214	0.659814	0.668449	0.677123	0.685839	0.694601	0.703413	0.712278	0.721202	0.730188	0.739244	0.748374	0.757585	0.766886	0.776284	0.785789	0.795412	0.805166	0.815066	0.825128	0.835373	0.845826	0.856516	0.867479	0.878763	0.890426	0.902551	0.915247	0.928679	0.943104	0.958973	0.97722	1	";
"0.0233233	0.0416602	0.0575565	0.071988	0.0854172	0.0981061	0.11022	0.121872	0.133142	0.144092	0.154767	0.165205	0.175436	0.185483	0.195367	0.205106	0.214714	0.224204	0.233586	0.242871	0.252067	0.261182	0.270222	0.279193	0.288101	0.296951	0.305747	0.314494	0.323195	0.331854	0.340474	0.349058	0.357609	0.366129	0.374622	0.383089	0.391532	0.399954	0.408356	0.416741	0.42511	0.433466	0.441809	0.450141	0.458465	0.46678	0.475091	0.483396	0.491699	0.5	0.508301	0.516604	0.524909	0.53322	0.541535	0.549859	0.558191	0.566534	0.57489	0.583259	0.591644	0.600046	0.608468	0.616911	0.625378	0.633871	0.642391	0.650942	0.659526	0.668146	0.676805	0.685506	0.694253	0.703049	0.711899	0.720807	0.729778	0.738818	0.747933	0.757129	0.766414	0.775796	0.785286	0.794894	0.804633	0.814517	0.824564	0.834795	0.845233	0.855908	0.866858	0.878128	0.88978	0.901894	0.914583	0.928012	0.942443	0.95834	0.976677	1	";
"0.0238036	0.0422173	0.0581362	0.0725728	0.0859992	0.0986813	0.110786	0.122427	0.133686	0.144624	0.155286	0.165711	0.175929	0.185963	0.195834	0.205559	0.215154	0.22463	0.233999	0.24327	0.252453	0.261554	0.27058	0.279538	0.288433	0.297269	0.306052	0.314785	0.323473	0.332119	0.340725	0.349296	0.357834	0.366341	0.37482	0.383273	0.391703	0.400112	0.408501	0.416873	0.425229	0.433571	0.441901	0.45022	0.45853	0.466833	0.47513	0.483422	0.491712	0.5	0.508288	0.516578	0.52487	0.533167	0.54147	0.54978	0.558099	0.566429	0.574771	0.583127	0.591499	0.599888	0.608297	0.616727	0.62518	0.633659	0.642166	0.650704	0.659275	0.667881	0.676527	0.685215	0.693948	0.702731	0.711567	0.720462	0.72942	0.738446	0.747547	0.75673	0.766001	0.77537	0.784846	0.794441	0.804166	0.814037	0.824071	0.834289	0.844714	0.855376	0.866314	0.877573	0.889214	0.901319	0.914001	0.927427	0.941864	0.957783	0.976196	1	";
"0.0242264	0.0427058	0.0586437	0.0730842	0.0865079	0.0991837	0.11128	0.122912	0.134161	0.145088	0.155739	0.166153	0.176359	0.186381	0.19624	0.205954	0.215537	0.225001	0.234358	0.243618	0.252789	0.261878	0.270893	0.279839	0.288722	0.297546	0.306318	0.315039	0.323715	0.332349	0.340944	0.349503	0.358029	0.366525	0.374992	0.383434	0.391853	0.40025	0.408628	0.416988	0.425332	0.433663	0.441981	0.450289	0.458588	0.466879	0.475164	0.483445	0.491723	0.5	0.508277	0.516555	0.524836	0.533121	0.541412	0.549711	0.558019	0.566337	0.574668	0.583012	0.591372	0.59975	0.608147	0.616566	0.625008	0.633475	0.641971	0.650497	0.659056	0.667651	0.676285	0.684961	0.693682	0.702454	0.711278	0.720161	0.729107	0.738122	0.747211	0.756382	0.765642	0.774999	0.784463	0.794046	0.80376	0.813619	0.823641	0.833847	0.844261	0.854912	0.865839	0.877088	0.88872	0.900816	0.913492	0.926916	0.941356	0.957294	0.975774	1	";
"0.0245973	0.0431329	0.0590868	0.0735303	0.0869514	0.0996216	0.111711	0.123334	0.134574	0.145491	0.156133	0.166537	0.176733	0.186745	0.196594	0.206298	0.21587	0.225324	0.234671	0.243921	0.253081	0.26216	0.271165	0.2801	0.288973	0.297788	0.306549	0.31526	0.323926	0.33255	0.341135	0.349684	0.358199	0.366685	0.375142	0.383574	0.391983	0.40037	0.408737	0.417088	0.425422	0.433743	0.442051	0.450349	0.458638	0.466919	0.475194	0.483465	0.491733	0.5	0.508267	0.516535	0.524806	0.533081	0.541362	0.549651	0.557949	0.566257	0.574578	0.582912	0.591263	0.59963	0.608017	0.616426	0.624858	0.633315	0.641801	0.650316	0.658865	0.66745	0.676074	0.68474	0.693451	0.702212	0.711027	0.7199	0.728835	0.73784	0.746919	0.756079	0.765329	0.774676	0.78413	0.793702	0.803406	0.813255	0.823267	0.833463	0.843867	0.854509	0.865426	0.876666	0.888289	0.900378	0.913049	0.92647	0.940913	0.956867	0.975403	1	";
"0.0249217	0.0435054	0.0594726	0.0739185	0.087337	0.100002	0.112085	0.123701	0.134933	0.145842	0.156476	0.166871	0.177058	0.187061	0.196901	0.206596	0.21616	0.225605	0.234943	0.244183	0.253335	0.262405	0.2714	0.280327	0.289191	0.297997	0.306749	0.315452	0.324109	0.332724	0.3413	0.34984	0.358347	0.366824	0.375273	0.383696	0.392095	0.400474	0.408833	0.417174	0.4255	0.433812	0.442112	0.450401	0.458681	0.466954	0.47522	0.483483	0.491742	0.5	0.508258	0.516517	0.52478	0.533046	0.541319	0.549599	0.557888	0.566188	0.5745	0.582826	0.591167	0.599526	0.607905	0.616304	0.624727	0.633176	0.641653	0.65016	0.6587	0.667276	0.675891	0.684548	0.693251	0.702003	0.710809	0.719673	0.7286	0.737595	0.746665	0.755817	0.765057	0.774395	0.78384	0.793404	0.803099	0.812939	0.822942	0.833129	0.843524	0.854158	0.865067	0.876299	0.887915	0.899998	0.912663	0.926082	0.940527	0.956495	0.975078	1	";
"0.0252047	0.0438294	0.0598079	0.0742555	0.0876717	0.100332	0.11241	0.124019	0.135244	0.146146	0.156772	0.16716	0.177339	0.187335	0.197168	0.206854	0.21641	0.225848	0.235178	0.244411	0.253555	0.262617	0.271605	0.280524	0.28938	0.298178	0.306922	0.315618	0.324267	0.332874	0.341443	0.349975	0.358475	0.366944	0.375385	0.383801	0.392193	0.400564	0.408915	0.417249	0.425567	0.433872	0.442164	0.450446	0.458718	0.466984	0.475243	0.483498	0.49175	0.5	0.50825	0.516502	0.524757	0.533016	0.541282	0.549554	0.557836	0.566128	0.574433	0.582751	0.591085	0.599436	0.607807	0.616199	0.624615	0.633056	0.641525	0.650025	0.658557	0.667126	0.675733	0.684382	0.693078	0.701822	0.71062	0.719476	0.728395	0.737383	0.746445	0.755589	0.764822	0.774152	0.78359	0.793146	0.802832	0.812665	0.822661	0.83284	0.843228	0.853854	0.864756	0.875981	0.88759	0.899668	0.912328	0.925745	0.940192	0.956171	0.974795	1	";
"0.0254509	0.0441106	0.0600985	0.0745475	0.0879616	0.100618	0.112691	0.124295	0.135514	0.14641	0.157029	0.16741	0.177583	0.187572	0.197398	0.207078	0.216627	0.226058	0.235381	0.244607	0.253745	0.2628	0.271781	0.280694	0.289543	0.298335	0.307073	0.315761	0.324404	0.333005	0.341566	0.350092	0.358585	0.367048	0.375483	0.383892	0.392277	0.400642	0.408987	0.417314	0.425626	0.433924	0.442209	0.450485	0.458751	0.467009	0.475262	0.483511	0.491756	0.5	0.508244	0.516489	0.524738	0.532991	0.541249	0.549515	0.557791	0.566076	0.574374	0.582686	0.591013	0.599358	0.607723	0.616108	0.624517	0.632952	0.641415	0.649908	0.658434	0.666995	0.675596	0.684239	0.692927	0.701665	0.710457	0.719306	0.728219	0.7372	0.746255	0.755393	0.764619	0.773942	0.783373	0.792922	0.802602	0.812428	0.822417	0.83259	0.842971	0.85359	0.864486	0.875705	0.887309	0.899382	0.912038	0.925453	0.939901	0.955889	0.974549	1	";
"0.0256646	0.0443542	0.0603501	0.0748001	0.0882122	0.100866	0.112934	0.124533	0.135747	0.146637	0.157251	0.167626	0.177793	0.187777	0.197597	0.207271	0.216814	0.226239	0.235557	0.244777	0.253909	0.262959	0.271934	0.280841	0.289684	0.29847	0.307202	0.315885	0.324522	0.333117	0.341673	0.350194	0.358681	0.367138	0.375567	0.38397	0.39235	0.400709	0.409048	0.41737	0.425676	0.433969	0.442249	0.450518	0.458779	0.467032	0.475279	0.483522	0.491762	0.5	0.508238	0.516478	0.524721	0.532968	0.541221	0.549482	0.557751	0.566031	0.574324	0.58263	0.590952	0.599291	0.60765	0.61603	0.624433	0.632862	0.641319	0.649806	0.658327	0.666883	0.675478	0.684115	0.692798	0.70153	0.710316	0.719159	0.728066	0.737041	0.746091	0.755223	0.764443	0.773761	0.783186	0.792729	0.802403	0.812223	0.822207	0.832374	0.842749	0.853363	0.864253	0.875467	0.887066	0.899134	0.911788	0.9252	0.93965	0.955646	0.974335	1	";
"0.0258497	0.0445649	0.0605674	0.0750182	0.0884286	0.101079	0.113143	0.124738	0.135947	0.146833	0.157442	0.167813	0.177975	0.187953	0.197768	0.207438	0.216976	0.226396	0.235708	0.244924	0.25405	0.263095	0.272065	0.280967	0.289806	0.298587	0.307314	0.315992	0.324624	0.333214	0.341765	0.350281	0.358763	0.367215	0.375639	0.384038	0.392413	0.400767	0.409101	0.417418	0.42572	0.434007	0.442282	0.450547	0.458803	0.467051	0.475293	0.483531	0.491766	0.5	0.508234	0.516469	0.524707	0.532949	0.541197	0.549453	0.557718	0.565993	0.57428	0.582582	0.590899	0.599233	0.607587	0.615962	0.624361	0.632785	0.641237	0.649719	0.658235	0.666786	0.675376	0.684008	0.692686	0.701413	0.710194	0.719033	0.727935	0.736905	0.74595	0.755076	0.764292	0.773604	0.783024	0.792562	0.802232	0.812047	0.822025	0.832187	0.842558	0.853167	0.864053	0.875262	0.886857	0.898921	0.911571	0.924982	0.939433	0.955435	0.97415	1	";
"0.0260098	0.0447467	0.0607548	0.0752063	0.0886151	0.101263	0.113324	0.124915	0.13612	0.147002	0.157607	0.167973	0.178131	0.188105	0.197916	0.207581	0.217115	0.22653	0.235839	0.24505	0.254172	0.263212	0.272178	0.281076	0.28991	0.298687	0.30741	0.316083	0.324711	0.333297	0.341844	0.350356	0.358834	0.367282	0.375702	0.384096	0.392467	0.400817	0.409147	0.41746	0.425757	0.43404	0.442311	0.450572	0.458824	0.467068	0.475306	0.48354	0.491771	0.5	0.508229	0.51646	0.524694	0.532932	0.541176	0.549428	0.557689	0.56596	0.574243	0.58254	0.590853	0.599183	0.607533	0.615904	0.624298	0.632718	0.641166	0.649644	0.658156	0.666703	0.675289	0.683917	0.69259	0.701313	0.71009	0.718924	0.727822	0.736788	0.745828	0.75495	0.764161	0.77347	0.782885	0.792419	0.802084	0.811895	0.821869	0.832027	0.842393	0.852998	0.86388	0.875085	0.886676	0.898737	0.911385	0.924794	0.939245	0.955253	0.97399	1	";
"0.026148	0.0449035	0.0609163	0.0753682	0.0887757	0.101421	0.113479	0.125067	0.136269	0.147147	0.157749	0.168111	0.178266	0.188236	0.198043	0.207704	0.217234	0.226646	0.235951	0.245158	0.254277	0.263313	0.272276	0.28117	0.29	0.298773	0.307493	0.316162	0.324787	0.333369	0.341912	0.35042	0.358895	0.367339	0.375755	0.384146	0.392513	0.400859	0.409186	0.417495	0.425789	0.434069	0.442336	0.450593	0.458841	0.467082	0.475317	0.483547	0.491774	0.5	0.508226	0.516453	0.524683	0.532918	0.541159	0.549407	0.557664	0.565931	0.574211	0.582505	0.590814	0.599141	0.607487	0.615854	0.624245	0.632661	0.641105	0.64958	0.658088	0.666631	0.675213	0.683838	0.692507	0.701227	0.71	0.71883	0.727724	0.736687	0.745723	0.754842	0.764049	0.773354	0.782766	0.792296	0.801957	0.811764	0.821734	0.831889	0.842251	0.852853	0.863731	0.874933	0.886521	0.898579	0.911224	0.924632	0.939084	0.955097	0.973852	1	";
"0.0262671	0.0450384	0.0610552	0.0755074	0.0889137	0.101557	0.113612	0.125198	0.136397	0.147272	0.15787	0.16823	0.178381	0.188348	0.198152	0.20781	0.217337	0.226746	0.236047	0.245251	0.254366	0.2634	0.272359	0.28125	0.290078	0.298847	0.307564	0.31623	0.324851	0.333431	0.341971	0.350475	0.358947	0.367388	0.375801	0.384189	0.392553	0.400896	0.40922	0.417526	0.425817	0.434093	0.442358	0.450612	0.458857	0.467094	0.475326	0.483553	0.491777	0.5	0.508223	0.516447	0.524674	0.532906	0.541143	0.549388	0.557642	0.565907	0.574183	0.582474	0.59078	0.599104	0.607447	0.615811	0.624199	0.632612	0.641053	0.649525	0.658029	0.666569	0.675149	0.68377	0.692436	0.701153	0.709922	0.71875	0.727641	0.7366	0.745634	0.754749	0.763953	0.773254	0.782663	0.79219	0.801848	0.811652	0.821619	0.83177	0.84213	0.852728	0.863603	0.874802	0.886388	0.898443	0.911086	0.924493	0.938945	0.954962	0.973733	1	"].

(** Tables/epsilon.table 1-100. *)
Definition epsilon_lines : list string := [
"0.0100000000000000";
"0.0200000000000000";
"0.0300000000000000";
"0.0400000000000000";
"0.0500000000000000";
"0.0600000000000000";
"0.0700000000000000";
"0.0800000000000000";
"0.0900000000000000";
"0.1000000000000000";
"0.1100000000000000";
"0.1200000000000000";
"0.1300000000000000";
"0.1400000000000000";
"0.1500000000000000";
"0.1600000000000000";
"0.1700000000000000";
"0.1800000000000000";
"0.1900000000000000";
"0.2000000000000000";
"0.2100000000000000";
"0.2200000000000001";
"0.2300000000000001";
"0.2400000000000001";
"0.2500000000000001";
"0.2600000000000001";
"0.2700000000000001";
"0.2800000000000001";
"0.2900000000000001";
"0.3000000000000001";
"0.3100000000000001";
"0.3200000000000001";
"0.3300000000000001";
"0.3400000000000001";
"0.3500000000000001";
"0.3600000000000002";
"0.3700000000000002";
"0.3800000000000002";
"0.3900000000000002";
"0.4000000000000002";
"0.4100000000000002";
"0.4200000000000002";
"0.4300000000000002";
"0.4400000000000002";
"0.4500000000000002";
"0.4600000000000002";
"0.4700000000000003";
"0.4800000000000003";
"0.4900000000000003";
"0.5000000000000002";
"0.5100000000000002";
"0.5200000000000002";
"0.5300000000000002";
"0.5400000000000003";
"0.5500000000000003";
"0.5600000000000003";
"0.5700000000000003";
"0.5800000000000003";
"0.5900000000000003";
"0.6000000000000003";
"0.6100000000000003";
"0.6200000000000003";
"0.6300000000000003";
"0.6400000000000003";
"0.6500000000000004";
"0.6600000000000004";
"0.6700000000000004";
"0.6800000000000004";
"0.6900000000000004";
"0.7000000000000004";
"0.7100000000000004";
"0.7200000000000004";
"0.7300000000000004";
"0.7400000000000004";
"0.7500000000000004";
"0.7600000000000005";
"0.7700000000000005";
"0.7800000000000005";
"0.7900000000000005";
"0.8000000000000005";
"0.8100000000000005";
"0.8200000000000005";
"0.8300000000000005";
"0.8400000000000005";
"0.8500000000000005";
"0.8600000000000005";
"0.8700000000000006";
"0.8800000000000006";
"0.8900000000000006";
"0.9000000000000006";
"0.9100000000000006";
"0.9200000000000006";
"0.9300000000000006";
"0.9400000000000006";
"0.9500000000000006";
"0.9600000000000006";
"0.9700000000000006";
"0.9800000000000006";
"0.9900000000000007";
"1.0000000000000007"].

(** Tables/log_chi.table 1-100. *)
Definition log_chi_lines : list string := [
"-2.3010299956639813";
"-2.2474842381320217";
"-2.1939384806000621";
"-2.1403927230681026";
"-2.0868469655361430";
"-2.0333012080041835";
"-1.9797554504722241";
"-1.9262096929402648";
"-1.8726639354083054";
"-1.8191181778763461";
"-1.7655724203443868";
"-1.7120266628124274";
"-1.6584809052804681";
"-1.6049351477485088";
"-1.5513893902165494";
"-1.4978436326845901";
"-1.4442978751526308";
"-1.3907521176206714";
"-1.3372063600887121";
"-1.2836606025567527";
"-1.2301148450247934";
"-1.1765690874928341";
"-1.1230233299608747";
"-1.0694775724289154";
"-1.0159318148969561";
"-0.9623860573649966";
"-0.9088402998330372";
"-0.8552945423010777";
"-0.8017487847691183";
"-0.7482030272371588";
"-0.6946572697051994";
"-0.6411115121732399";
"-0.5875657546412805";
"-0.5340199971093210";
"-0.4804742395773616";
"-0.4269284820454022";
"-0.3733827245134428";
"-0.3198369669814835";
"-0.2662912094495241";
"-0.2127454519175647";
"-0.1591996943856053";
"-0.1056539368536459";
"-0.0521081793216865";
"0.0014375782102729";
"0.0549833357422324";
"0.1085290932741918";
"0.1620748508061512";
"0.2156206083381106";
"0.2691663658700700";
"0.3227121234020294";
"0.3762578809339888";
"0.4298036384659482";
"0.4833493959979075";
"0.5368951535298669";
"0.5904409110618264";
"0.6439866685937858";
"0.6975324261257453";
"0.7510781836577047";
"0.8046239411896642";
"0.8581696987216236";
"0.9117154562535831";
"0.9652612137855425";
"1.0188069713175019";
"1.0723527288494612";
"1.1258984863814205";
"1.1794442439133799";
"1.2329900014453392";
"1.2865357589772985";
"1.3400815165092579";
"1.3936272740412172";
"1.4471730315731766";
"1.5007187891051359";
"1.5542645466370952";
"1.6078103041690546";
"1.6613560617010139";
"1.7149018192329732";
"1.7684475767649326";
"1.8219933342968919";
"1.8755390918288513";
"1.9290848493608106";
"1.9826306068927699";
"2.0361763644247293";
"2.0897221219566888";
"2.1432678794886484";
"2.1968136370206079";
"2.2503593945525675";
"2.3039051520845271";
"2.3574509096164866";
"2.4109966671484462";
"2.4645424246804057";
"2.5180881822123653";
"2.5716339397443249";
"2.6251796972762844";
"2.6787254548082440";
"2.7322712123402035";
"2.7858169698721631";
"2.8393627274041227";
"2.8929084849360822";
"2.9464542424680418";
"3.0000000000000013"].
