(* Primality certificates (generated): N+1 certificates for the CSIDH-512 prime and for
   p434 = 2^216*3^137-1, p503 = 2^250*3^159-1, p751 = 2^372*3^239-1, checked by Prime63.check. *)
From Coq Require Import ZArith List Uint63.
From Verif Require Import NT Prime63.
Import ListNotations.
Open Scope Z_scope.
Definition p434_ctx : ctx := mkctx 24439423661345221551909145011457493619085780243761596511325807336205221239331976725970216671828618445898719026692884939342314733567
  [1073741823; 1073741823; 1073741823; 1073741823; 1073741823; 1073741823; 1073741823; 496941247; 782499265; 836814178; 90684517; 899707208; 74251359; 1016880589; 9025]%uint63
  1%uint63
  [0; 0; 0; 0; 0; 0; 0; 0; 0; 0; 0; 0; 0; 0; 0]%uint63
  [3221225440; 3221225469; 3221225469; 3221225469; 3221225469; 3221225469; 3221225469; 3017218045; 2491398188; 3155733589; 2901904566; 3020826880; 2376043512; 2475407776; 288828]%uint63
  [118961; 0; 0; 0; 0; 0; 0; 375800640; 78571134; 500470936; 1036928003; 515835384; 657968369; 769619232; 6137]%uint63.
Definition p434_base : el := ([214819741; 858993459; 214748364; 858993459; 214748364; 858993459; 214748364; 424256883; 789639116; 1064504962; 873178973; 25139019; 1068726660; 9530315; 7293]%uint63, [644340263; 429496729; 644245094; 429496729; 644245094; 429496729; 644245094; 400028761; 434105125; 782487949; 418182576; 807358114; 326476602; 389574774; 6715]%uint63).
Definition p434_tree : tree := Leaf 3 137.
Definition p434_w : list int := [357834633; 357913941; 357913941; 357913941; 357913941; 357913941; 357913941; 604321429; 14290626; 503166888; 831054947; 913730892; 351433662; 145887159; 4934]%uint63.
Definition p434_m0 : positive := 8146474553781740517303048337152497873028593414587198837108602445401740413110658908656738890609539481966239675564294979780771577856.
Lemma p434_check : check p434_ctx p434_base p434_m0 p434_tree p434_w = true.
Proof. vm_cast_no_check (eq_refl true). Qed.
Definition p503_ctx : ctx := mkctx 13175843156907117380839252916199345042492186767578363998445663477035843932020761233518914911546024351608607150390087656982982306331019593961154237431807
  [1073741823; 1073741823; 1073741823; 1073741823; 1073741823; 1073741823; 1073741823; 1073741823; 664841215; 795379783; 452014213; 840884127; 270244854; 929685139; 637820011; 274745223; 4220661]%uint63
  1%uint63
  [0; 0; 0; 0; 0; 0; 0; 0; 0; 0; 0; 0; 0; 0; 0; 0; 0]%uint63
  [3221225440; 3221225469; 3221225469; 3221225469; 3221225469; 3221225469; 3221225469; 3221225469; 3021307901; 2903574769; 2653294773; 2212230123; 2205384407; 2906378854; 2156629369; 2349396209; 135061158]%uint63
  [254; 0; 0; 0; 0; 0; 0; 0; 781539328; 910739696; 78764877; 90054611; 77283621; 83175910; 128732410; 7931767; 1693865]%uint63.
Definition p503_base : el := ([214748517; 858993459; 214748364; 858993459; 214748364; 858993459; 214748364; 858993459; 816640204; 705519774; 996655228; 436957956; 315167508; 880087668; 849048542; 274456469; 1860451]%uint63, [644245297; 429496729; 644245094; 429496729; 644245094; 429496729; 644245094; 429496729; 594639462; 132077803; 763717160; 147077435; 868218904; 409603446; 270929570; 815437642; 3887488]%uint63).
Definition p503_tree : tree := Leaf 3 159.
Definition p503_w : list int := [357913771; 357913941; 357913941; 357913941; 357913941; 357913941; 357913941; 357913941; 143814997; 546133927; 757418236; 422933778; 934550323; 158406649; 551998405; 985285261; 3091417]%uint63.
Definition p503_m0 : positive := 4391947718969039126946417638733115014164062255859454666148554492345281310673587077839638303848674783869535716796695885660994102110339864653718079143936.
Lemma p503_check : check p503_ctx p503_base p503_m0 p503_tree p503_w = true.
Proof. vm_cast_no_check (eq_refl true). Qed.
Definition p751_ctx : ctx := mkctx 10354717741769305252977768237866805321427389645549071170116189679054678940682478846502882896561066713624553211618840202385203911976522554393044160468771151816976706840078913334358399730952774926980235086850991501872665651576831
  [1073741823; 1073741823; 1073741823; 1073741823; 1073741823; 1073741823; 1073741823; 1073741823; 1073741823; 1073741823; 1073741823; 1073741823; 686731263; 354935266; 775866728; 83751709; 446012186; 464495067; 82413181; 748016130; 582288476; 728865301; 688519547; 1036452740; 803591489; 1]%uint63
  1%uint63
  [0; 0; 0; 0; 0; 0; 0; 0; 0; 0; 0; 0; 0; 0; 0; 0; 0; 0; 0; 0; 0; 0; 0; 0; 0; 0]%uint63
  [3221225440; 3221225469; 3221225469; 3221225469; 3221225469; 3221225469; 3221225469; 3221225469; 3221225469; 3221225469; 3221225469; 3221225469; 2648047613; 2767993938; 2279157000; 2680054709; 2461229888; 3052682091; 2637221803; 2461679680; 2527103892; 2922594991; 2705272691; 3101716626; 3166349372; 53]%uint63
  [614127228; 0; 0; 0; 0; 0; 0; 0; 0; 0; 0; 0; 88260608; 679370755; 143647666; 501140633; 392312539; 212733848; 493786882; 165502207; 903141218; 95421820; 264721613; 835259953; 469300895; 0]%uint63.
Definition p751_base : el := ([1012721431; 429496729; 644245094; 429496729; 644245094; 429496729; 644245094; 429496729; 644245094; 429496729; 644245094; 429496729; 405050982; 478609506; 456110310; 746931451; 539338325; 220539322; 742251495; 34156185; 873090791; 203026152; 511285242; 278949790; 657047200; 0]%uint63, [276553417; 214748365; 858993459; 214748364; 858993459; 214748364; 858993459; 214748364; 858993459; 214748364; 858993459; 214748364; 53150515; 756457764; 150941440; 665911897; 151960613; 448884119; 659225779; 1010708173; 642389330; 513656637; 195392289; 1589418; 428098881; 1]%uint63).
Definition p751_tree : tree := Leaf 3 239.
Definition p751_w : list int := [1022237613; 357913940; 357913941; 357913941; 357913941; 357913941; 357913941; 357913941; 357913941; 357913941; 357913941; 357913941; 527983957; 381225801; 878685014; 409651363; 602956918; 13009123; 56193747; 139003905; 307829896; 179340553; 768853323; 504472160; 312910507; 0]%uint63.
Definition p751_m0 : positive := 3451572580589768417659256079288935107142463215183023723372063226351559646894159615500960965520355571208184403872946734128401303992174184797681386822923717272325568946692971111452799910317591642326745028950330500624221883858944.
Lemma p751_check : check p751_ctx p751_base p751_m0 p751_tree p751_w = true.
Proof. vm_cast_no_check (eq_refl true). Qed.
Definition csidh_ctx : ctx := mkctx 5326738796327623094747867617954605554069371494832722337612446642054009560026576537626892113026381253624626941643949444792662881241621373288942880288065659
  [868665467; 772203540; 986350417; 478608661; 189736386; 482553980; 894465302; 833706492; 164472746; 857361547; 69578687; 247165475; 179580168; 91814193; 1070115597; 486793839; 632589967; 1]%uint63
  590227789%uint63
  [0; 0; 0; 0; 0; 0; 0; 0; 0; 0; 0; 0; 0; 0; 0; 0; 0; 0]%uint63
  [3101232992; 2161934999; 2572184117; 2430575291; 2850338892; 2556825475; 2853085900; 3056287640; 3115644246; 2739507554; 2226518007; 2540586080; 2525339909; 2938054179; 3105186208; 2692500989; 3063009772; 48]%uint63
  [889834605; 635913491; 127142025; 572175103; 219295025; 831545084; 345173586; 59871181; 312027735; 1051249744; 760408775; 978671968; 230087586; 947644593; 477617906; 129669024; 339365733; 1]%uint63.
Definition csidh_base : el := ([63388762; 750737168; 488303663; 224278429; 599021022; 595437846; 385997212; 202664007; 434859555; 372725426; 255412638; 636636276; 388716950; 801697959; 285845498; 604656912; 115389068; 1]%uint63, [579149862; 844094471; 351418547; 695793347; 314289830; 472214475; 992094572; 788156171; 828078183; 283306811; 1009992275; 684071384; 756483096; 291893267; 383544816; 123766048; 447953329; 0]%uint63).
Definition csidh_tree : tree := Node (Node (Node (Node (Node (Leaf 587 1) (Leaf 373 1)) (Node (Leaf 367 1) (Leaf 359 1))) (Node (Node (Leaf 353 1) (Leaf 349 1)) (Node (Leaf 347 1) (Leaf 337 1)))) (Node (Node (Node (Leaf 331 1) (Leaf 317 1)) (Node (Leaf 313 1) (Leaf 311 1))) (Node (Node (Leaf 307 1) (Leaf 293 1)) (Node (Leaf 283 1) (Leaf 281 1))))) (Node (Node (Node (Node (Leaf 277 1) (Leaf 271 1)) (Node (Leaf 269 1) (Leaf 263 1))) (Node (Node (Leaf 257 1) (Leaf 251 1)) (Node (Leaf 241 1) (Leaf 239 1)))) (Node (Node (Node (Leaf 233 1) (Leaf 229 1)) (Node (Leaf 227 1) (Leaf 223 1))) (Node (Node (Leaf 211 1) (Leaf 199 1)) (Node (Leaf 197 1) (Leaf 193 1))))).
Definition csidh_w : list int := [570897068; 897376489; 976942456; 377392620; 147389616; 103145362; 285026654; 269989043; 414253922; 558523447; 337317960; 172026919; 320531363; 411550044; 224919567; 476900257; 218819918; 0]%uint63.
Definition csidh_m0 : positive := 2061786283851720016999121777671348741997247696599181950385533431040558658780.
Lemma csidh_check : check csidh_ctx csidh_base csidh_m0 csidh_tree csidh_w = true.
Proof. vm_cast_no_check (eq_refl true). Qed.

Lemma prime3 : Znumtheory.prime 3. Proof. exact (small_prime_ok 3 eq_refl). Qed.

Theorem p434_prime : Znumtheory.prime (2 ^ 216 * 3 ^ 137 - 1).
Proof.
  change (2 ^ 216 * 3 ^ 137 - 1) with (cN p434_ctx).
  apply (check_sound _ _ _ _ _ p434_check). constructor; [exact prime3 | constructor].
Qed.
Theorem p503_prime : Znumtheory.prime (2 ^ 250 * 3 ^ 159 - 1).
Proof.
  change (2 ^ 250 * 3 ^ 159 - 1) with (cN p503_ctx).
  apply (check_sound _ _ _ _ _ p503_check). constructor; [exact prime3 | constructor].
Qed.
Theorem p751_prime : Znumtheory.prime (2 ^ 372 * 3 ^ 239 - 1).
Proof.
  change (2 ^ 372 * 3 ^ 239 - 1) with (cN p751_ctx).
  apply (check_sound _ _ _ _ _ p751_check). constructor; [exact prime3 | constructor].
Qed.

Lemma csidh_leaf_primes : forallb small_prime (map fst (leaves csidh_tree)) = true.
Proof. vm_compute. reflexivity. Qed.
Theorem csidh_prime : Znumtheory.prime (cN csidh_ctx).
Proof.
  apply (check_sound _ _ _ _ _ csidh_check). apply Forall_forall. intros l Hl. apply small_prime_ok.
  pose proof csidh_leaf_primes as H. rewrite forallb_forall in H. exact (H l Hl).
Qed.
