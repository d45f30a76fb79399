(** * Primes: certificates that the moduli of src/fields are prime.

    Generated by tools/gen_primes.py; everything is checked here. *)
From Coq Require Import Uint63.
From Verif Require Import Base Field Fp Pock ModelFields.
Local Open Scope Z_scope.

Lemma prime_2 : prime 2.
Proof. apply (small_check_ok (Z.to_nat 4)); [rewrite Z2Nat.id; lia|vm_cast_no_check (eq_refl true)]. Qed.

Lemma prime_3 : prime 3.
Proof. apply (small_check_ok (Z.to_nat 4)); [rewrite Z2Nat.id; lia|vm_cast_no_check (eq_refl true)]. Qed.

Lemma prime_5 : prime 5.
Proof. apply (small_check_ok (Z.to_nat 5)); [rewrite Z2Nat.id; lia|vm_cast_no_check (eq_refl true)]. Qed.

Definition P_babybear : mparams :=
  (MkParams 2 [402653185; 3] [134217727; 536870908] 402653183 [393705336; 1] [128809251; 1])%uint63.
Lemma P_babybear_ok : params_ok P_babybear = true.
Proof. vm_cast_no_check (eq_refl true). Qed.
Definition cert_babybear : list pitem := [
  PI 2 27 1006632960 1006632960;
  PI 3 1 671088640 903936239;
  PI 5 1 402653184 1929423917].

Lemma facts_babybear : pock_facts p_babybear g_babybear 1 cert_babybear.
Proof. apply (pock_check_ok P_babybear P_babybear_ok). vm_cast_no_check (eq_refl true). Qed.
Lemma cert_babybear_primes : forall it, In it cert_babybear -> prime (iq it).
Proof.
  intros it H.
  destruct H as [<-|H]; [exact prime_2|].
  destruct H as [<-|H]; [exact prime_3|].
  destruct H as [<-|H]; [exact prime_5|].
  destruct H.
Qed.
Lemma prime_babybear : prime p_babybear.
Proof. exact (pocklington _ _ _ _ facts_babybear cert_babybear_primes). Qed.

Lemma prime_11 : prime 11.
Proof. apply (small_check_ok (Z.to_nat 6)); [rewrite Z2Nat.id; lia|vm_cast_no_check (eq_refl true)]. Qed.

Lemma prime_19 : prime 19.
Proof. apply (small_check_ok (Z.to_nat 7)); [rewrite Z2Nat.id; lia|vm_cast_no_check (eq_refl true)]. Qed.

Lemma prime_10177 : prime 10177.
Proof. apply (small_check_ok (Z.to_nat 103)); [rewrite Z2Nat.id; lia|vm_cast_no_check (eq_refl true)]. Qed.

Lemma prime_125527 : prime 125527.
Proof. apply (small_check_ok (Z.to_nat 357)); [rewrite Z2Nat.id; lia|vm_cast_no_check (eq_refl true)]. Qed.

Lemma prime_859267 : prime 859267.
Proof. apply (small_check_ok (Z.to_nat 929)); [rewrite Z2Nat.id; lia|vm_cast_no_check (eq_refl true)]. Qed.

Lemma prime_906349 : prime 906349.
Proof. apply (small_check_ok (Z.to_nat 955)); [rewrite Z2Nat.id; lia|vm_cast_no_check (eq_refl true)]. Qed.

Lemma prime_2508409 : prime 2508409.
Proof. apply (small_check_ok (Z.to_nat 1586)); [rewrite Z2Nat.id; lia|vm_cast_no_check (eq_refl true)]. Qed.

Lemma prime_2529403 : prime 2529403.
Proof. apply (small_check_ok (Z.to_nat 1593)); [rewrite Z2Nat.id; lia|vm_cast_no_check (eq_refl true)]. Qed.

Lemma prime_52437899 : prime 52437899.
Proof. apply (small_check_ok (Z.to_nat 7244)); [rewrite Z2Nat.id; lia|vm_cast_no_check (eq_refl true)]. Qed.

Lemma prime_254760293 : prime 254760293.
Proof. apply (small_check_ok (Z.to_nat 15964)); [rewrite Z2Nat.id; lia|vm_cast_no_check (eq_refl true)]. Qed.

Definition P_bls12 : mparams :=
  (MkParams 9 [1; 536870904; 529989567; 457704959; 494949691; 201589968; 354471143; 174404527; 7597479] [536870911; 7; 6881344; 79165952; 41921220; 335280943; 182399768; 362466384; 529273432] 536870911 [536870842; 559; 481694080; 172907520; 250130850; 384216799; 419952827; 139714039; 5047359] [175223744; 489824382; 375642521; 475708563; 62229572; 199455800; 136968049; 375395230; 2620817])%uint63.
Lemma P_bls12_ok : params_ok P_bls12 = true.
Proof. vm_cast_no_check (eq_refl true). Qed.
Definition cert_bls12 : list pitem := [
  PI 2 32 26217937587563095239723870254092982918845276250263818911301829349969290592256 26217937587563095239723870254092982918845276250263818911301829349969290592256;
  PI 3 1 17478625058375396826482580169395321945896850833509212607534552899979527061504 34957250116750793652965160338790643891717372063634208689047487940972256078507;
  PI 11 1 4766897743193290043586158228016905985244595681866148892963968972721689198592 15237313608488036111689775547677265494030007996893459275632088102409617761759;
  PI 19 1 2759782903954010025234091605693998201983713289501454622242297826312556904448 17372250238261164742944716364847819552654733795210267180674966167200733303506;
  PI 10177 1 5152390210781781515127025695999407078479959958782316775336902692339449856 31632662147513852104284722682864615366194693039679563367706592809451509106062;
  PI 125527 1 417725869136729074059347714102830194601086240414633009811464136798765056 45586316949702288865595937911126532596552252939487288316664680991909190629232;
  PI 859267 1 61023960160376449321861238134579782346686830170980193377150127608692736 31096133001792019692169709836425200062158390207101479139217653802309251457969;
  PI 906349 2 57853956009358636109763171259841369977448590444219211167666824479244288 29151262252276627170863686650079642517799996839957025940997617530301678876505;
  PI 2508409 1 20904037250355181503274681484632675866531555460264908084209416686010368 34298639838597154104616345297652762671243825198233599603727653869914569109675;
  PI 2529403 1 20730534112249487519168649878325425342537568153642435714120548880482304 28992909499308446102318145929488837859780004099631346323296574681787418299536;
  PI 52437899 1 999961405302035279473110478895921551656570994587857873989262207090688 16886755245871592402150520133323802684375871656657805845969397140992207962765;
  PI 254760293 2 205824363591567193241718168805002771125288949563767528806397073424384 24675323886831622127612097416448099851529718468688737594381699456767149257066].

Lemma facts_bls12 : pock_facts p_bls12 g_bls12 1 cert_bls12.
Proof. apply (pock_check_ok P_bls12 P_bls12_ok). vm_cast_no_check (eq_refl true). Qed.
Lemma cert_bls12_primes : forall it, In it cert_bls12 -> prime (iq it).
Proof.
  intros it H.
  destruct H as [<-|H]; [exact prime_2|].
  destruct H as [<-|H]; [exact prime_3|].
  destruct H as [<-|H]; [exact prime_11|].
  destruct H as [<-|H]; [exact prime_19|].
  destruct H as [<-|H]; [exact prime_10177|].
  destruct H as [<-|H]; [exact prime_125527|].
  destruct H as [<-|H]; [exact prime_859267|].
  destruct H as [<-|H]; [exact prime_906349|].
  destruct H as [<-|H]; [exact prime_2508409|].
  destruct H as [<-|H]; [exact prime_2529403|].
  destruct H as [<-|H]; [exact prime_52437899|].
  destruct H as [<-|H]; [exact prime_254760293|].
  destruct H.
Qed.
Lemma prime_bls12 : prime p_bls12.
Proof. exact (pocklington _ _ _ _ facts_bls12 cert_bls12_primes). Qed.

Lemma prime_13 : prime 13.
Proof. apply (small_check_ok (Z.to_nat 6)); [rewrite Z2Nat.id; lia|vm_cast_no_check (eq_refl true)]. Qed.

Lemma prime_29 : prime 29.
Proof. apply (small_check_ok (Z.to_nat 8)); [rewrite Z2Nat.id; lia|vm_cast_no_check (eq_refl true)]. Qed.

Lemma prime_983 : prime 983.
Proof. apply (small_check_ok (Z.to_nat 34)); [rewrite Z2Nat.id; lia|vm_cast_no_check (eq_refl true)]. Qed.

Lemma prime_11003 : prime 11003.
Proof. apply (small_check_ok (Z.to_nat 107)); [rewrite Z2Nat.id; lia|vm_cast_no_check (eq_refl true)]. Qed.

Lemma prime_237073 : prime 237073.
Proof. apply (small_check_ok (Z.to_nat 489)); [rewrite Z2Nat.id; lia|vm_cast_no_check (eq_refl true)]. Qed.

Lemma prime_3691 : prime 3691.
Proof. apply (small_check_ok (Z.to_nat 63)); [rewrite Z2Nat.id; lia|vm_cast_no_check (eq_refl true)]. Qed.

Lemma prime_4999 : prime 4999.
Proof. apply (small_check_ok (Z.to_nat 73)); [rewrite Z2Nat.id; lia|vm_cast_no_check (eq_refl true)]. Qed.

Definition P_405928799 : mparams :=
  (MkParams 2 [405928799; 0] [130942113; 536870911] 65593185 [390621701; 0] [275253216; 0])%uint63.
Lemma P_405928799_ok : params_ok P_405928799 = true.
Proof. vm_cast_no_check (eq_refl true). Qed.
Definition cert_405928799 : list pitem := [
  PI 3691 1 109978 170220075;
  PI 4999 1 81202 173101550].

Lemma facts_405928799 : pock_facts 405928799 2 22 cert_405928799.
Proof. apply (pock_check_ok P_405928799 P_405928799_ok). vm_cast_no_check (eq_refl true). Qed.
Lemma cert_405928799_primes : forall it, In it cert_405928799 -> prime (iq it).
Proof.
  intros it H.
  destruct H as [<-|H]; [exact prime_3691|].
  destruct H as [<-|H]; [exact prime_4999|].
  destruct H.
Qed.
Lemma prime_405928799 : prime 405928799.
Proof. exact (pocklington _ _ _ _ facts_405928799 cert_405928799_primes). Qed.

Lemma prime_661 : prime 661.
Proof. apply (small_check_ok (Z.to_nat 28)); [rewrite Z2Nat.id; lia|vm_cast_no_check (eq_refl true)]. Qed.

Lemma prime_93001 : prime 93001.
Proof. apply (small_check_ok (Z.to_nat 307)); [rewrite Z2Nat.id; lia|vm_cast_no_check (eq_refl true)]. Qed.

Definition P_12048837557 : mparams :=
  (MkParams 2 [237677493; 22] [299193419; 536870889] 190502243 [116006800; 22] [392300603; 2])%uint63.
Lemma P_12048837557_ok : params_ok P_12048837557 = true.
Proof. vm_cast_no_check (eq_refl true). Qed.
Definition cert_12048837557 : list pitem := [
  PI 661 1 18228196 1826643224;
  PI 93001 1 129556 10304344409].

Lemma facts_12048837557 : pock_facts 12048837557 2 196 cert_12048837557.
Proof. apply (pock_check_ok P_12048837557 P_12048837557_ok). vm_cast_no_check (eq_refl true). Qed.
Lemma cert_12048837557_primes : forall it, In it cert_12048837557 -> prime (iq it).
Proof.
  intros it H.
  destruct H as [<-|H]; [exact prime_661|].
  destruct H as [<-|H]; [exact prime_93001|].
  destruct H.
Qed.
Lemma prime_12048837557 : prime 12048837557.
Proof. exact (pocklington _ _ _ _ facts_12048837557 cert_12048837557_primes). Qed.

Definition P_5156902474397 : mparams :=
  (MkParams 2 [257364637; 9605] [279506275; 536861306] 107478091 [294924924; 1458] [205795258; 725])%uint63.
Lemma P_5156902474397_ok : params_ok P_5156902474397 = true.
Proof. vm_cast_no_check (eq_refl true). Qed.
Definition cert_5156902474397 : list pitem := [
  PI 12048837557 1 428 5089286551700].

Lemma facts_5156902474397 : pock_facts 5156902474397 2 428 cert_5156902474397.
Proof. apply (pock_check_ok P_5156902474397 P_5156902474397_ok). vm_cast_no_check (eq_refl true). Qed.
Lemma cert_5156902474397_primes : forall it, In it cert_5156902474397 -> prime (iq it).
Proof.
  intros it H.
  destruct H as [<-|H]; [exact prime_12048837557|].
  destruct H.
Qed.
Lemma prime_5156902474397 : prime 5156902474397.
Proof. exact (pocklington _ _ _ _ facts_5156902474397 cert_5156902474397_primes). Qed.

Definition P_1670836401704629 : mparams :=
  (MkParams 2 [171151029; 3112175] [365719883; 533758736] 182620259 [89923172; 1576757] [393725850; 1524144])%uint63.
Lemma P_1670836401704629_ok : params_ok P_1670836401704629 = true.
Proof. vm_cast_no_check (eq_refl true). Qed.
Definition cert_1670836401704629 : list pitem := [
  PI 5156902474397 1 324 735766788910399].

Lemma facts_1670836401704629 : pock_facts 1670836401704629 2 324 cert_1670836401704629.
Proof. apply (pock_check_ok P_1670836401704629 P_1670836401704629_ok). vm_cast_no_check (eq_refl true). Qed.
Lemma cert_1670836401704629_primes : forall it, In it cert_1670836401704629 -> prime (iq it).
Proof.
  intros it H.
  destruct H as [<-|H]; [exact prime_5156902474397|].
  destruct H.
Qed.
Lemma prime_1670836401704629 : prime 1670836401704629.
Proof. exact (pocklington _ _ _ _ facts_1670836401704629 cert_1670836401704629_primes). Qed.

Lemma prime_853 : prime 853.
Proof. apply (small_check_ok (Z.to_nat 32)); [rewrite Z2Nat.id; lia|vm_cast_no_check (eq_refl true)]. Qed.

Lemma prime_1637 : prime 1637.
Proof. apply (small_check_ok (Z.to_nat 43)); [rewrite Z2Nat.id; lia|vm_cast_no_check (eq_refl true)]. Qed.

Definition P_639533339 : mparams :=
  (MkParams 2 [102662427; 1] [434208485; 536870910] 239668973 [605517; 1] [245792570; 0])%uint63.
Lemma P_639533339_ok : params_ok P_639533339 = true.
Proof. vm_cast_no_check (eq_refl true). Qed.
Definition cert_639533339 : list pitem := [
  PI 853 1 749746 303978671;
  PI 1637 1 390674 296391531].

Lemma facts_639533339 : pock_facts 639533339 2 458 cert_639533339.
Proof. apply (pock_check_ok P_639533339 P_639533339_ok). vm_cast_no_check (eq_refl true). Qed.
Lemma cert_639533339_primes : forall it, In it cert_639533339 -> prime (iq it).
Proof.
  intros it H.
  destruct H as [<-|H]; [exact prime_853|].
  destruct H as [<-|H]; [exact prime_1637|].
  destruct H.
Qed.
Lemma prime_639533339 : prime 639533339.
Proof. exact (pocklington _ _ _ _ facts_639533339 cert_639533339_primes). Qed.

Definition P_65865678001877903 : mparams :=
  (MkParams 2 [338768783; 122684385] [198102129; 414186526] 141259921 [255537604; 46133369] [324055491; 79709204])%uint63.
Lemma P_65865678001877903_ok : params_ok P_65865678001877903 = true.
Proof. vm_cast_no_check (eq_refl true). Qed.
Definition cert_65865678001877903 : list pitem := [
  PI 639533339 1 102990218 39033286818209505].

Lemma facts_65865678001877903 : pock_facts 65865678001877903 2 102990218 cert_65865678001877903.
Proof. apply (pock_check_ok P_65865678001877903 P_65865678001877903_ok). vm_cast_no_check (eq_refl true). Qed.
Lemma cert_65865678001877903_primes : forall it, In it cert_65865678001877903 -> prime (iq it).
Proof.
  intros it H.
  destruct H as [<-|H]; [exact prime_639533339|].
  destruct H.
Qed.
Lemma prime_65865678001877903 : prime 65865678001877903.
Proof. exact (pocklington _ _ _ _ facts_65865678001877903 cert_65865678001877903_primes). Qed.

Definition P_13818364434197438864469338081 : mparams :=
  (MkParams 4 [311764961; 113028931; 160571199; 89] [225105951; 423841980; 376299712; 536870822] 359572447 [418090507; 376603732; 59325454; 67] [266711906; 1626467; 510156281; 47])%uint63.
Lemma P_13818364434197438864469338081_ok : params_ok P_13818364434197438864469338081 = true.
Proof. vm_cast_no_check (eq_refl true). Qed.
Definition cert_13818364434197438864469338081 : list pitem := [
  PI 65865678001877903 1 209796131360 12281824895882260584345986666].

Lemma facts_13818364434197438864469338081 : pock_facts 13818364434197438864469338081 2 209796131360 cert_13818364434197438864469338081.
Proof. apply (pock_check_ok P_13818364434197438864469338081 P_13818364434197438864469338081_ok). vm_cast_no_check (eq_refl true). Qed.
Lemma cert_13818364434197438864469338081_primes : forall it, In it cert_13818364434197438864469338081 -> prime (iq it).
Proof.
  intros it H.
  destruct H as [<-|H]; [exact prime_65865678001877903|].
  destruct H.
Qed.
Lemma prime_13818364434197438864469338081 : prime 13818364434197438864469338081.
Proof. exact (pocklington _ _ _ _ facts_13818364434197438864469338081 cert_13818364434197438864469338081_primes). Qed.

Definition P_bn256 : mparams :=
  (MkParams 9 [268435457; 521120927; 240919632; 131109107; 361091715; 47923392; 10936641; 240920116; 3171406] [268435455; 15749984; 295951279; 405761804; 175779196; 488947519; 525934270; 295950795; 533699505] 268435455 [268435287; 514263732; 86771339; 391139145; 178784091; 490881230; 299191303; 86689704; 903222] [95853524; 102173274; 34397646; 498479371; 240439551; 486036963; 471195907; 131109217; 656714])%uint63.
Lemma P_bn256_ok : params_ok P_bn256 = true.
Proof. vm_cast_no_check (eq_refl true). Qed.
Definition cert_bn256 : list pitem := [
  PI 2 28 10944121435919637611123202872628637544274182200208017171849102093287904247808 10944121435919637611123202872628637544274182200208017171849102093287904247808;
  PI 3 2 7296080957279758407415468581752425029516121466805344781232734728858602831872 21888242871839275220777098755158527141083908662080648982059381034193860502796;
  PI 13 1 1683710990141482709403569672712098083734489569262771872592169552813523730432 21120641579407164250618160789280065995537368731124837219303741793575078240245;
  PI 29 1 754766995580664662836082956733009485812012565531587391162007040916407189504 208007819583120157308441403104333377193393690700941857307628559341192762356;
  PI 983 1 22266778099531307448877320188461114027007491760341845720954429487869591552 17696017710936266905446386223199650971890822954963074269046249145646866481346;
  PI 11003 1 1989297725333025104266691424634851866631679033028813445760083994053967872 6064115282017587852343074455607925611441012267397749261737236320925873318925;
  PI 237073 1 92327016875980289709272695521030547926370208334209439049146061283131392 14814488384282618391003699367586082516296581002812921995613827822341184051960;
  PI 405928799 1 53921384552563552462426805409431605981098090062873401459989056323584 15264560006964528013297664237136169842867965793248796980623898504340169554633;
  PI 1670836401704629 1 13100171177446423556613374118717413492986637444144570673659904 7025431637861171809141109011919152079856077313480830517480144795748897883046;
  PI 13818364434197438864469338081 1 1583996642733683218748855262055434666238317428736 11026382576715408116714793341139987845643181348539025374884445417798198449417].

Lemma facts_bn256 : pock_facts p_bn256 g_bn256 1 cert_bn256.
Proof. apply (pock_check_ok P_bn256 P_bn256_ok). vm_cast_no_check (eq_refl true). Qed.
Lemma cert_bn256_primes : forall it, In it cert_bn256 -> prime (iq it).
Proof.
  intros it H.
  destruct H as [<-|H]; [exact prime_2|].
  destruct H as [<-|H]; [exact prime_3|].
  destruct H as [<-|H]; [exact prime_13|].
  destruct H as [<-|H]; [exact prime_29|].
  destruct H as [<-|H]; [exact prime_983|].
  destruct H as [<-|H]; [exact prime_11003|].
  destruct H as [<-|H]; [exact prime_237073|].
  destruct H as [<-|H]; [exact prime_405928799|].
  destruct H as [<-|H]; [exact prime_1670836401704629|].
  destruct H as [<-|H]; [exact prime_13818364434197438864469338081|].
  destruct H.
Qed.
Lemma prime_bn256 : prime p_bn256.
Proof. exact (pocklington _ _ _ _ facts_bn256 cert_bn256_primes). Qed.

Lemma prime_17 : prime 17.
Proof. apply (small_check_ok (Z.to_nat 7)); [rewrite Z2Nat.id; lia|vm_cast_no_check (eq_refl true)]. Qed.

Lemma prime_257 : prime 257.
Proof. apply (small_check_ok (Z.to_nat 19)); [rewrite Z2Nat.id; lia|vm_cast_no_check (eq_refl true)]. Qed.

Lemma prime_65537 : prime 65537.
Proof. apply (small_check_ok (Z.to_nat 259)); [rewrite Z2Nat.id; lia|vm_cast_no_check (eq_refl true)]. Qed.

Definition P_goldilocks : mparams :=
  (MkParams 3 [1; 536870904; 63] [536870911; 7; 536870848] 536870911 [528482304; 67108863; 0] [16385; 536739832; 63])%uint63.
Lemma P_goldilocks_ok : params_ok P_goldilocks = true.
Proof. vm_cast_no_check (eq_refl true). Qed.
Definition cert_goldilocks : list pitem := [
  PI 2 32 9223372034707292160 9223372034707292160;
  PI 3 1 6148914689804861440 6148914691236517205;
  PI 5 1 3689348813882916864 14374118087968855019;
  PI 17 1 1085102592318504960 2072139277441003378;
  PI 257 1 71777214277877760 15070436630151791556;
  PI 65537 1 281470681743360 4060103266922916621].

Lemma facts_goldilocks : pock_facts p_goldilocks g_goldilocks 1 cert_goldilocks.
Proof. apply (pock_check_ok P_goldilocks P_goldilocks_ok). vm_cast_no_check (eq_refl true). Qed.
Lemma cert_goldilocks_primes : forall it, In it cert_goldilocks -> prime (iq it).
Proof.
  intros it H.
  destruct H as [<-|H]; [exact prime_2|].
  destruct H as [<-|H]; [exact prime_3|].
  destruct H as [<-|H]; [exact prime_5|].
  destruct H as [<-|H]; [exact prime_17|].
  destruct H as [<-|H]; [exact prime_257|].
  destruct H as [<-|H]; [exact prime_65537|].
  destruct H.
Qed.
Lemma prime_goldilocks : prime p_goldilocks.
Proof. exact (pocklington _ _ _ _ facts_goldilocks cert_goldilocks_primes). Qed.

Lemma prime_463 : prime 463.
Proof. apply (small_check_ok (Z.to_nat 24)); [rewrite Z2Nat.id; lia|vm_cast_no_check (eq_refl true)]. Qed.

Lemma prime_897019 : prime 897019.
Proof. apply (small_check_ok (Z.to_nat 950)); [rewrite Z2Nat.id; lia|vm_cast_no_check (eq_refl true)]. Qed.

Definition P_417677162933 : mparams :=
  (MkParams 2 [528464309; 777] [8406603; 536870134] 406836067 [329987477; 255] [459985362; 470])%uint63.
Lemma P_417677162933_ok : params_ok P_417677162933 = true.
Proof. vm_cast_no_check (eq_refl true). Qed.
Definition cert_417677162933 : list pitem := [
  PI 897019 1 465628 296611446840].

Lemma facts_417677162933 : pock_facts 417677162933 2 465628 cert_417677162933.
Proof. apply (pock_check_ok P_417677162933 P_417677162933_ok). vm_cast_no_check (eq_refl true). Qed.
Lemma cert_417677162933_primes : forall it, In it cert_417677162933 -> prime (iq it).
Proof.
  intros it H.
  destruct H as [<-|H]; [exact prime_897019|].
  destruct H.
Qed.
Lemma prime_417677162933 : prime 417677162933.
Proof. exact (pocklington _ _ _ _ facts_417677162933 cert_417677162933_primes). Qed.

Definition P_539204044132271846773 : mparams :=
  (MkParams 3 [370996597; 397191808; 1870] [165874315; 139679103; 536869041] 190156067 [375387341; 61460436; 384] [73319349; 506106297; 878])%uint63.
Lemma P_539204044132271846773_ok : params_ok P_539204044132271846773 = true.
Proof. vm_cast_no_check (eq_refl true). Qed.
Definition cert_539204044132271846773 : list pitem := [
  PI 417677162933 1 1290958884 357948261010903571449].

Lemma facts_539204044132271846773 : pock_facts 539204044132271846773 2 1290958884 cert_539204044132271846773.
Proof. apply (pock_check_ok P_539204044132271846773 P_539204044132271846773_ok). vm_cast_no_check (eq_refl true). Qed.
Lemma cert_539204044132271846773_primes : forall it, In it cert_539204044132271846773 -> prime (iq it).
Proof.
  intros it H.
  destruct H as [<-|H]; [exact prime_417677162933|].
  destruct H.
Qed.
Lemma prime_539204044132271846773 : prime 539204044132271846773.
Proof. exact (pocklington _ _ _ _ facts_539204044132271846773 cert_539204044132271846773_primes). Qed.

Lemma prime_41655379 : prime 41655379.
Proof. apply (small_check_ok (Z.to_nat 6457)); [rewrite Z2Nat.id; lia|vm_cast_no_check (eq_refl true)]. Qed.

Definition P_22160661629 : mparams :=
  (MkParams 2 [148954237; 41] [387916675; 536870870] 515081003 [337369143; 24] [518518288; 5])%uint63.
Lemma P_22160661629_ok : params_ok P_22160661629 = true.
Proof. vm_cast_no_check (eq_refl true). Qed.
Definition cert_22160661629 : list pitem := [
  PI 41655379 1 532 16729823236].

Lemma facts_22160661629 : pock_facts 22160661629 2 532 cert_22160661629.
Proof. apply (pock_check_ok P_22160661629 P_22160661629_ok). vm_cast_no_check (eq_refl true). Qed.
Lemma cert_22160661629_primes : forall it, In it cert_22160661629 -> prime (iq it).
Proof.
  intros it H.
  destruct H as [<-|H]; [exact prime_41655379|].
  destruct H.
Qed.
Lemma prime_22160661629 : prime 22160661629.
Proof. exact (pocklington _ _ _ _ facts_22160661629 cert_22160661629_primes). Qed.

Lemma prime_413527 : prime 413527.
Proof. apply (small_check_ok (Z.to_nat 646)); [rewrite Z2Nat.id; lia|vm_cast_no_check (eq_refl true)]. Qed.

Lemma prime_772231 : prime 772231.
Proof. apply (small_check_ok (Z.to_nat 881)); [rewrite Z2Nat.id; lia|vm_cast_no_check (eq_refl true)]. Qed.

Definition P_325086459374267 : mparams :=
  (MkParams 2 [384740027; 605520] [152130885; 536265391] 109442445 [33365198; 379557] [105060989; 488662])%uint63.
Lemma P_325086459374267_ok : params_ok P_325086459374267 = true.
Proof. vm_cast_no_check (eq_refl true). Qed.
Definition cert_325086459374267 : list pitem := [
  PI 413527 1 786131158 316594302541038;
  PI 772231 1 420970486 209020464320022].

Lemma facts_325086459374267 : pock_facts 325086459374267 2 1018 cert_325086459374267.
Proof. apply (pock_check_ok P_325086459374267 P_325086459374267_ok). vm_cast_no_check (eq_refl true). Qed.
Lemma cert_325086459374267_primes : forall it, In it cert_325086459374267 -> prime (iq it).
Proof.
  intros it H.
  destruct H as [<-|H]; [exact prime_413527|].
  destruct H as [<-|H]; [exact prime_772231|].
  destruct H.
Qed.
Lemma prime_325086459374267 : prime 325086459374267.
Proof. exact (pocklington _ _ _ _ facts_325086459374267 cert_325086459374267_primes). Qed.

Definition P_8999194758858563409123804352480028797519453 : mparams :=
  (MkParams 5 [416630365; 328804244; 265945522; 340437822; 108323866] [120240547; 208066667; 270925389; 196433089; 428547045] 240796171 [480962188; 295395756; 9959733; 248861446; 103575445] [453477911; 65683807; 164462440; 13455816; 21759686])%uint63.
Lemma P_8999194758858563409123804352480028797519453_ok : params_ok P_8999194758858563409123804352480028797519453 = true.
Proof. vm_cast_no_check (eq_refl true). Qed.
Definition cert_8999194758858563409123804352480028797519453 : list pitem := [
  PI 22160661629 1 406088721966766121824069856270988 6901950476907449788516068320711881523971993;
  PI 325086459374267 1 27682465692912573825889481556 4653512860112211493377566737993937411621372].

Lemma facts_8999194758858563409123804352480028797519453 : pock_facts 8999194758858563409123804352480028797519453 2 1249171444262593764 cert_8999194758858563409123804352480028797519453.
Proof. apply (pock_check_ok P_8999194758858563409123804352480028797519453 P_8999194758858563409123804352480028797519453_ok). vm_cast_no_check (eq_refl true). Qed.
Lemma cert_8999194758858563409123804352480028797519453_primes : forall it, In it cert_8999194758858563409123804352480028797519453 -> prime (iq it).
Proof.
  intros it H.
  destruct H as [<-|H]; [exact prime_22160661629|].
  destruct H as [<-|H]; [exact prime_325086459374267|].
  destruct H.
Qed.
Lemma prime_8999194758858563409123804352480028797519453 : prime 8999194758858563409123804352480028797519453.
Proof. exact (pocklington _ _ _ _ facts_8999194758858563409123804352480028797519453 cert_8999194758858563409123804352480028797519453_primes). Qed.

Definition P_pallas : mparams :=
  (MkParams 9 [1; 157910888; 322848486; 221378578; 548; 0; 0; 0; 4194304] [536870911; 378960023; 214022425; 315492333; 536870363; 536870911; 536870911; 536870911; 532676607] 536870911 [536870785; 346411879; 337302464; 339078853; 536801263; 536870911; 536870911; 536870911; 4194303] [15210; 432081168; 443154824; 312802696; 104117101; 394760890; 125401753; 500063114; 3475133])%uint63.
Lemma P_pallas_ok : params_ok P_pallas = true.
Proof. vm_cast_no_check (eq_refl true). Qed.
Definition cert_pallas : list pitem := [
  PI 2 32 14474011154664524427946373126085988481681528240970780357977338382174983815168 14474011154664524427946373126085988481681528240970780357977338382174983815168;
  PI 3 1 9649340769776349618630915417390658987787685493980520238651558921449989210112 22133170128921496496426368845619334247139259014204004380744104610838389681726;
  PI 463 1 62522726370041142237349343957174896249164268859485012345474463853887619072 18157094078198413832848588488268949345162557590316107663231161524056747791391;
  PI 539204044132271846773 1 53686582332509037086971591707806806267914632360185823232 16264913878166215080526430211453729044715379671717856306007726116591631506003;
  PI 8999194758858563409123804352480028797519453 1 3216734728497058061019394250637312 1254961512684607270767001069925980784790085572477347986887947586426479684942].

Lemma facts_pallas : pock_facts p_pallas g_pallas 1 cert_pallas.
Proof. apply (pock_check_ok P_pallas P_pallas_ok). vm_cast_no_check (eq_refl true). Qed.
Lemma cert_pallas_primes : forall it, In it cert_pallas -> prime (iq it).
Proof.
  intros it H.
  destruct H as [<-|H]; [exact prime_2|].
  destruct H as [<-|H]; [exact prime_3|].
  destruct H as [<-|H]; [exact prime_463|].
  destruct H as [<-|H]; [exact prime_539204044132271846773|].
  destruct H as [<-|H]; [exact prime_8999194758858563409123804352480028797519453|].
  destruct H.
Qed.
Lemma prime_pallas : prime p_pallas.
Proof. exact (pocklington _ _ _ _ facts_pallas cert_pallas_primes). Qed.

Lemma prime_1709 : prime 1709.
Proof. apply (small_check_ok (Z.to_nat 44)); [rewrite Z2Nat.id; lia|vm_cast_no_check (eq_refl true)]. Qed.

Lemma prime_24859 : prime 24859.
Proof. apply (small_check_ok (Z.to_nat 160)); [rewrite Z2Nat.id; lia|vm_cast_no_check (eq_refl true)]. Qed.

Lemma prime_80513981 : prime 80513981.
Proof. apply (small_check_ok (Z.to_nat 8975)); [rewrite Z2Nat.id; lia|vm_cast_no_check (eq_refl true)]. Qed.

Definition P_5247740253619 : mparams :=
  (MkParams 2 [363959731; 9774] [172911181; 536861137] 459595397 [264142876; 6501] [500567250; 4387])%uint63.
Lemma P_5247740253619_ok : params_ok P_5247740253619 = true.
Proof. vm_cast_no_check (eq_refl true). Qed.
Definition cert_5247740253619 : list pitem := [
  PI 80513981 1 65178 769012902966].

Lemma facts_5247740253619 : pock_facts 5247740253619 2 65178 cert_5247740253619.
Proof. apply (pock_check_ok P_5247740253619 P_5247740253619_ok). vm_cast_no_check (eq_refl true). Qed.
Lemma cert_5247740253619_primes : forall it, In it cert_5247740253619 -> prime (iq it).
Proof.
  intros it H.
  destruct H as [<-|H]; [exact prime_80513981|].
  destruct H.
Qed.
Lemma prime_5247740253619 : prime 5247740253619.
Proof. exact (pocklington _ _ _ _ facts_5247740253619 cert_5247740253619_primes). Qed.

Definition P_1690502597179744445941507 : mparams :=
  (MkParams 3 [286934787; 44589777; 5865109] [249936125; 492281134; 531005802] 527311957 [195609071; 237297540; 3145985] [67406495; 315020322; 5239099])%uint63.
Lemma P_1690502597179744445941507_ok : params_ok P_1690502597179744445941507 = true.
Proof. vm_cast_no_check (eq_refl true). Qed.
Definition cert_1690502597179744445941507 : list pitem := [
  PI 5247740253619 1 322139152374 1612103633945672580815922].

Lemma facts_1690502597179744445941507 : pock_facts 1690502597179744445941507 2 322139152374 cert_1690502597179744445941507.
Proof. apply (pock_check_ok P_1690502597179744445941507 P_1690502597179744445941507_ok). vm_cast_no_check (eq_refl true). Qed.
Lemma cert_1690502597179744445941507_primes : forall it, In it cert_1690502597179744445941507 -> prime (iq it).
Proof.
  intros it H.
  destruct H as [<-|H]; [exact prime_5247740253619|].
  destruct H.
Qed.
Lemma prime_1690502597179744445941507 : prime 1690502597179744445941507.
Proof. exact (pocklington _ _ _ _ facts_1690502597179744445941507 cert_1690502597179744445941507_primes). Qed.

Lemma prime_5701177 : prime 5701177.
Proof. apply (small_check_ok (Z.to_nat 2390)); [rewrite Z2Nat.id; lia|vm_cast_no_check (eq_refl true)]. Qed.

Definition P_399082391 : mparams :=
  (MkParams 2 [399082391; 0] [137788521; 536870911] 106353625 [230547366; 0] [13327315; 0])%uint63.
Lemma P_399082391_ok : params_ok P_399082391 = true.
Proof. vm_cast_no_check (eq_refl true). Qed.
Definition cert_399082391 : list pitem := [
  PI 5701177 1 70 108347075].

Lemma facts_399082391 : pock_facts 399082391 2 70 cert_399082391.
Proof. apply (pock_check_ok P_399082391 P_399082391_ok). vm_cast_no_check (eq_refl true). Qed.
Lemma cert_399082391_primes : forall it, In it cert_399082391 -> prime (iq it).
Proof.
  intros it H.
  destruct H as [<-|H]; [exact prime_5701177|].
  destruct H.
Qed.
Lemma prime_399082391 : prime 399082391.
Proof. exact (pocklington _ _ _ _ facts_399082391 cert_399082391_primes). Qed.

Lemma prime_12149 : prime 12149.
Proof. apply (small_check_ok (Z.to_nat 113)); [rewrite Z2Nat.id; lia|vm_cast_no_check (eq_refl true)]. Qed.

Lemma prime_31649 : prime 31649.
Proof. apply (small_check_ok (Z.to_nat 180)); [rewrite Z2Nat.id; lia|vm_cast_no_check (eq_refl true)]. Qed.

Definition P_5239247429827 : mparams :=
  (MkParams 2 [461070531; 9758] [75800381; 536861153] 210350101 [129986449; 6812] [469764168; 1550])%uint63.
Lemma P_5239247429827_ok : params_ok P_5239247429827 = true.
Proof. vm_cast_no_check (eq_refl true). Qed.
Definition cert_5239247429827 : list pitem := [
  PI 12149 1 431249274 1844307483293;
  PI 31649 1 165542274 3285602026620].

Lemma facts_5239247429827 : pock_facts 5239247429827 2 13626 cert_5239247429827.
Proof. apply (pock_check_ok P_5239247429827 P_5239247429827_ok). vm_cast_no_check (eq_refl true). Qed.
Lemma cert_5239247429827_primes : forall it, In it cert_5239247429827 -> prime (iq it).
Proof.
  intros it H.
  destruct H as [<-|H]; [exact prime_12149|].
  destruct H as [<-|H]; [exact prime_31649|].
  destruct H.
Qed.
Lemma prime_5239247429827 : prime 5239247429827.
Proof. exact (pocklington _ _ _ _ facts_5239247429827 cert_5239247429827_primes). Qed.

Definition P_10427374428728808478656897599072717 : mparams :=
  (MkParams 4 [357493197; 316514334; 466723999; 67385327] [179377715; 220356577; 70146912; 469485584] 185586939 [181902181; 468754217; 491028386; 65173616] [430073293; 499248789; 47553290; 67315131])%uint63.
Lemma P_10427374428728808478656897599072717_ok : params_ok P_10427374428728808478656897599072717 = true.
Proof. vm_cast_no_check (eq_refl true). Qed.
Definition cert_10427374428728808478656897599072717 : list pitem := [
  PI 399082391 1 26128375152309860944621076 9594354843854567192677827349439447;
  PI 5239247429827 1 1990242791238649418308 4601202459140556978093564575308911].

Lemma facts_10427374428728808478656897599072717 : pock_facts 10427374428728808478656897599072717 2 4987047376988 cert_10427374428728808478656897599072717.
Proof. apply (pock_check_ok P_10427374428728808478656897599072717 P_10427374428728808478656897599072717_ok). vm_cast_no_check (eq_refl true). Qed.
Lemma cert_10427374428728808478656897599072717_primes : forall it, In it cert_10427374428728808478656897599072717 -> prime (iq it).
Proof.
  intros it H.
  destruct H as [<-|H]; [exact prime_399082391|].
  destruct H as [<-|H]; [exact prime_5239247429827|].
  destruct H.
Qed.
Lemma prime_10427374428728808478656897599072717 : prime 10427374428728808478656897599072717.
Proof. exact (pocklington _ _ _ _ facts_10427374428728808478656897599072717 cert_10427374428728808478656897599072717_primes). Qed.

Definition P_vesta : mparams :=
  (MkParams 9 [1; 37181704; 86652771; 221378579; 548; 0; 0; 0; 4194304] [536870911; 499689207; 450218140; 315492332; 536870363; 536870911; 536870911; 536870911; 532676607] 536870911 [536870785; 109761799; 269387226; 339078782; 536801263; 536870911; 536870911; 536870911; 4194303] [15210; 45200720; 271026314; 514125206; 68726138; 629227; 402317873; 510127444; 3475133])%uint63.
Lemma P_vesta_ok : params_ok P_vesta = true.
Proof. vm_cast_no_check (eq_refl true). Qed.
Definition cert_vesta : list pitem := [
  PI 2 32 14474011154664524427946373126085988481681528240970823689839871374196681474048 14474011154664524427946373126085988481681528240970823689839871374196681474048;
  PI 3 2 9649340769776349618630915417390658987787685493980549126559914249464454316032 18317726336717081899103977975950105208176126275164690651247334874100119239483;
  PI 1709 1 16938573615757196521879898333629009340762467221732970965289492538556678144 26774040467539626279244761539042093273756454467589274456437148840277412874777;
  PI 24859 1 1164488608122975536260217476655214488248242346109724742736222002027167744 14149626508927981560899890299238383941982958866874075943777689354104319672309;
  PI 1690502597179744445941507 1 17123914720759887890346816573426942681519505935433728 17011134504949309288021784931514936481093252692220898910817551274791183143375;
  PI 10427374428728808478656897599072717 1 2776156405161148062854777934377771323097088 17366802902706779738514302472166066405663422292903970524100018493423057419098].

Lemma facts_vesta : pock_facts p_vesta g_vesta 1 cert_vesta.
Proof. apply (pock_check_ok P_vesta P_vesta_ok). vm_cast_no_check (eq_refl true). Qed.
Lemma cert_vesta_primes : forall it, In it cert_vesta -> prime (iq it).
Proof.
  intros it H.
  destruct H as [<-|H]; [exact prime_2|].
  destruct H as [<-|H]; [exact prime_3|].
  destruct H as [<-|H]; [exact prime_1709|].
  destruct H as [<-|H]; [exact prime_24859|].
  destruct H as [<-|H]; [exact prime_1690502597179744445941507|].
  destruct H as [<-|H]; [exact prime_10427374428728808478656897599072717|].
  destruct H.
Qed.
Lemma prime_vesta : prime p_vesta.
Proof. exact (pocklington _ _ _ _ facts_vesta cert_vesta_primes). Qed.
