(** * CertMinPoly: certificates for the powers of the shipped internal matrices

    Generated by tools/gen_minpoly.py. *)
From Coq Require Import Uint63.
From Verif Require Import Base Field Fp Primes ModelInstances ProofMinPoly.

Lemma minpoly_POSEIDON2_BABYBEAR_16_PARAMS : mp_cert P_babybear P_babybear_ok POSEIDON2_BABYBEAR_16_PARAMS
  [0x5e358b3d; 0x758de787; 0x1a9d0dde; 0x10e2b889; 0x202877c0; 0x694f932c; 0x5c37e607; 0x2421a45f; 0x21338a4; 0x4a6d2836; 0x1a1e5ae0; 0x40a1ab23; 0x89551d5; 0xc5d4324; 0x200dc80e; 0x691be3a1]%Z
  1182266884102822267511361600%positive [(2, [0x49983b00; 0xd335a28; 0x54d9ea9e; 0x3badb588; 0x720936a0; 0x77c040bb; 0x32e040d0; 0x62202815; 0x4075afa8; 0x461dbb1f; 0x6a1167aa; 0x257352c0; 0x2a03bfd4; 0x46953457; 0x4c924af5; 0x6dfe318a]%Z,
   [0xef8436b; 0xa3cb08d; 0x617c1af6; 0x1d00a5e6; 0x12aef1b1; 0x5f02ff8a; 0x4b1543da; 0x720023b9; 0x481045ea; 0x4c869bca; 0x489643ee; 0x4eaebfac; 0x7506e2e6; 0x548d3529; 0x63ff9986; 0x1126117b]%Z)] = true.
Proof. vm_cast_no_check (eq_refl true). Qed.

Lemma minpoly_POSEIDON2_BABYBEAR_24_PARAMS : mp_cert P_babybear P_babybear_ok POSEIDON2_BABYBEAR_24_PARAMS
  [0x6a4f7c46; 0x5cd73197; 0x5c745f44; 0x2dd394b3; 0x512de9a8; 0x46e291ff; 0x1d6e1f45; 0x62e06ce8; 0x530eca59; 0x6c72b8a; 0x66b23aae; 0x488d3c42; 0x2cd9be1e; 0x9699fd7; 0x2b156b52; 0x1fea862c; 0x1f2f8331; 0x288aac39; 0x436295a6; 0x3360c51f; 0x4343b400; 0x9639d58; 0x5260252d; 0x441c99ed]%Z
  718766754945489455304472257065075294400%positive [(2, [0x3c3c43a6; 0x3fb81ca0; 0x6d0e8040; 0x382865f0; 0x58d24cd2; 0x580dfa84; 0x77183650; 0x4c1b1d84; 0x3324a417; 0x94f712a; 0x403b667b; 0x616a58ef; 0x1bdae8a7; 0x277b5c3d; 0x2fba4cd4; 0x654de7e5; 0x293eeb2; 0x38e604a7; 0x5f4706e; 0x4d497954; 0x2881c1ed; 0xb1c28d7; 0x45a9368d; 0x1fdc39c3]%Z,
   [0x30f1cef9; 0x3e36d18a; 0x5f9db71f; 0x20742290; 0x70332776; 0x73f85b99; 0x149af143; 0xaea5bc; 0x75fe8982; 0x1844f4d5; 0x3179856f; 0x51606c13; 0x4b93b71b; 0x5ab14cb4; 0x32296259; 0x1ea0483; 0x61ca4f2f; 0x3853db2b; 0x30aebe21; 0x1264b22c; 0x48dafe4d; 0x708ae37f; 0x746ba065; 0x68beba17]%Z);(3, [0x5de8f2f2; 0x4d707996; 0x6424b24d; 0xc70cfa4; 0xea3b182; 0x25599bcf; 0x1c65fea9; 0x5adbd1e0; 0x67390d7d; 0x1bb3b04f; 0x7766bf5b; 0x59bbf3ab; 0x2230b97d; 0xbb08010; 0x71719401; 0x1614a544; 0x661bd4ac; 0x2d03c7d8; 0xeb4c3a1; 0x64daf7d5; 0x22e40a6e; 0x38c4751f; 0x40c447b4; 0x21b610c4]%Z,
   [0x510267a; 0x6780f2fc; 0x5606490f; 0x7715ad7d; 0x25f739b; 0x4f6a319b; 0x55de6554; 0x40a79005; 0x1dabf62d; 0x640acc54; 0x5bb3199b; 0x6cda44d8; 0x76c665f3; 0x1bab4507; 0x4a383dcb; 0x4d2c3a08; 0x9ec273e; 0x5261b18; 0x3a4861e; 0x55cf40e; 0xa16a225; 0x9cba06c; 0x31a35cd7; 0x59280b4a]%Z)] = true.
Proof. vm_cast_no_check (eq_refl true). Qed.

Lemma minpoly_POSEIDON2_BLS_2_PARAMS : mp_cert P_bls12 P_bls12_ok POSEIDON2_BLS_2_PARAMS
  [0x5; 0x73eda753299d7d483339d80809a1d80553bda402fffe5bfefffffffefffffffc]%Z
  840%positive [(2, [0x4; 0x73eda753299d7d483339d80809a1d80553bda402fffe5bfeffffffff00000000]%Z,
   [0x28de858512bb793becc2d15bb4f9815f6114f7129fcd3e8614eac6b9a7599a21; 0x4c651d408033008830ad25e1bf50df77b5c286c7c012fd632ad54a1b56a8f58d]%Z)] = true.
Proof. vm_cast_no_check (eq_refl true). Qed.

Lemma minpoly_POSEIDON2_BLS_4_PARAMS : mp_cert P_bls12 P_bls12_ok POSEIDON2_BLS_4_PARAMS
  [0x56c166bdfe62e492960475312470b287352e1761e33ecdb0901935e5d6b0a988; 0x3988d2ad5194eaed87f4ce8709a5aadadb9077c634bfef436b40ab9737b5d1dc; 0x51eea555449777bfdb14208e61bd55ce96207945545c62c868a5e1699210bae9; 0xb28c91cf0733a336c805de6236150707b25051fd05c659da1bb26f16a1a9dc4]%Z
  720720%positive [(2, [0x1a0e4172bd30b69d818685c13dcc1898e3a98bc5ce7a1116a695e8d64c8292b2; 0x308801229def9cfc5b14e9f696b909bb30ee09ae85cdc3b81c324e3d0795c65a; 0x5eb6c8aa99f897d5afadb37b80671a611b01ac4dedeb08ed11c26ba8a0070df0; 0x48e5fb01b83efeee5f0603a493fb9c685bf59dad482357dab40d8730eb48a022]%Z,
   [0x16d8dcf5fb9da1f975c686ca4af07db2f78eea1700cb0c15865253362d79ec32; 0x3cfe7f113d0a9ed01ff6ab1752a1aa364b020ab097ec374417453842f157e7dd; 0x2626090dfc4ff5165a64c655a2c54462076fbd1f8df9d4957cdd626e72ceba02; 0x32985f2a0b62a6d70be1ada5bb305bc95474355a815e3aaafece5172d40cff95]%Z)] = true.
Proof. vm_cast_no_check (eq_refl true). Qed.

Lemma minpoly_POSEIDON2_BLS_8_PARAMS : mp_cert P_bls12 P_bls12_ok POSEIDON2_BLS_8_PARAMS
  [0x7220dcae21e44ce40a0f924586e82b6f64caadca9765baa81a738490993ec87b; 0x31f132b5b255c7214c3cb7238419c2819cb79a4dc304710839ad61719a96f1b1; 0x55ea511690771f93b63c531e0c8c36dc70c81b5c346db6d55f782be7a076e089; 0xf3134cdbd71aca031341a5f7cfada5010b55b48a8f1810466f093829279ed38; 0x704108d96415124c3145d6cb614721463893e4bf48bf711dcfc1ab164b99d6f2; 0x604c530995d314c31224680fe5a624e02a685dc17a8a6719cd91771e08dc54a2; 0x46345ddfb62e0c6bb98200eb72f5f02c53b7eb09d600662f405784bf107fce7c; 0x38c27b148032c75cbc1a2ebd9eec60497a84eaf7688980d1f76fe2de6e4088c2]%Z
  144403552893600%positive [(2, [0x23c4bdd25cea259d4b5478ddab91762a6af50a9ee62100ba5c106d021127e650; 0x3a966423f6a9fad865875ac3329e5c1ceb5978e36aad92e4679b127be03d7ca4; 0x215ffda96b1c6e07a72c08593f04438408aee4bb9ba4a6c96b5ed026512245d; 0x60dcf6d95ed07e6b2766c5280eb08b187280ac9aabb4d46ffc6b53135f1f4675; 0x5297504a460683929fe2a6cc70ad3aa85b3236e0c7640db128034b5cf7aa2eac; 0x7175dd6a86a828df9be89967131403ef4e19809d9bf7af98ab5ffea5d8c73783; 0x50f05fb19b0edcdbd333efd0832feed8ee27e05874d54dfe01155dc4da7399ad; 0x602e66b8ebf7b1a40d4a0a9d0e957f764acc991ca1180fea14084d138e2e7e28]%Z,
   [0x4def5c7ab35d09767118bd3444439a3e0d86b8e4153d818119f74333580768bd; 0x3f1166fe14478ef8a0a7b0ad37972eb36611809b9b90913fe59ce7e6a341a331; 0x2f6be4dbfb4a1539b485da90d1f2a304fcd095d4dc04a7d347bd0828d092b859; 0x6f0b3d08361f1f93e0af75640f5283224831792c855cce072e0b5206950c9692; 0x46224e3118755aacd1bde3e24f061afbc000e84bddba921deea47274d9e791d9; 0x2887e993943554f41f2b031134afd95d9bc148032938d45f8d08c5d1439f4207; 0x639bbefde4a986ff5db9f6e57780ace14c7a531979dc2b68c7797f1ce9ca617f; 0x171179d838c3f214c149ca14aa050347a7e10be208a83a3fbebdf7fc026d06a7]%Z)] = true.
Proof. vm_cast_no_check (eq_refl true). Qed.

Lemma minpoly_POSEIDON2_GOLDILOCKS_8_PARAMS : mp_cert P_goldilocks P_goldilocks_ok POSEIDON2_GOLDILOCKS_8_PARAMS
  [0xdc05cf4fb33ba3e1; 0xa96ffa9e2f163727; 0x4469d1fe2419d52b; 0x31b22526af3880f4; 0x824c1e7102fef5d0; 0x64f3218ec1609f7a; 0xbe1e128dcf4a491a; 0xa7e829813024815]%Z
  144403552893600%positive [(2, [0xdf6362f202da7b67; 0xd1b64c81ba2f42c6; 0x2a75723199726cc6; 0x661c075dc960396; 0x8a50778adf848aa5; 0xbe1b35a275c8aa64; 0xe79142f0477081fe; 0xf478c863f3cff84]%Z,
   [0xdafa5662d9cc8cf; 0x6e37401e4e7195a6; 0x9b2c1b2ccb76d5ce; 0xd44b2ac14e7cfa34; 0x2e2993a78752c1b0; 0x222d8696f9677ebe; 0xb1c4ddd5076262bd; 0xcfa65d786d601f63]%Z)] = true.
Proof. vm_cast_no_check (eq_refl true). Qed.

Lemma minpoly_POSEIDON2_GOLDILOCKS_12_PARAMS : mp_cert P_goldilocks P_goldilocks_ok POSEIDON2_GOLDILOCKS_12_PARAMS
  [0x2d94330454ec0fc; 0xa3a78b0180b2e93d; 0xdc7ea12e3bdf5e08; 0xcd13822b57c49fb8; 0x3223168830a187a1; 0x9ac168089a71c8db; 0xbbdaef37f05d6efb; 0x71bf03e0abc2ac92; 0xebe2daa2e087a438; 0x3ec34b9614b1d707; 0x4ce506c202455490; 0xa247d6531ae2dcdc]%Z
  442720643463713815200%positive [(2, [0x29527b0f960e1f9f; 0x41548ecc42152fce; 0xc1c25517824489de; 0xf0923e1a7e27ba33; 0x1f54d69164aa2593; 0x6c238f1fc37e27ad; 0x2d8091ef625354f9; 0x435de36c22fa6f4; 0xfbb532d4c06eceb9; 0x7b7a0b583bbb38cb; 0x842f893d62fda353; 0x2bbdc4a620a41f1f]%Z,
   [0xebd9cda6ec4fb2a4; 0x470130dd066f0c87; 0x49e08ac07a3d908; 0xeaea0d279f21fbaf; 0x22bc42eb401bd822; 0x2aace65e04f2d561; 0x3dcd761aac6b095a; 0x2329bf5bd9e986d3; 0x84f95c9bc93d3031; 0xe3086b3fb5cde48b; 0x7675bdd175b7b60b; 0x7a33dea2b4a7f11]%Z);(3, [0xf6de34828f7ca2b2; 0x79c10e9a0168713b; 0x9e1c59ac621f7175; 0xa71cd52b20fab6a5; 0xf83f936fdd333a3b; 0xf8c6a8aa9ebd3ac6; 0x38a49197f5fd22f5; 0xe7b01ddbb985e018; 0x17e7c13ce8168de7; 0xb413e018f55e3e15; 0xbaab45975f470e79; 0x62ad9d369424622f]%Z,
   [0xf1d4904a0142932f; 0xceb153775f1b2f0a; 0x9703b85d9e956262; 0xa3b550ee4daf44b9; 0x89eed6bd7dd2f976; 0xf18cf1c64b89f9d8; 0x3c5720bcce13b015; 0xed1db4322cd71d9e; 0xb93f88e543851683; 0xec1f96159e98f989; 0xca32c24d4db99754; 0x6efba65c2de8ab48]%Z)] = true.
Proof. vm_cast_no_check (eq_refl true). Qed.

Lemma minpoly_POSEIDON2_GOLDILOCKS_16_PARAMS : mp_cert P_goldilocks P_goldilocks_ok POSEIDON2_GOLDILOCKS_16_PARAMS
  [0xbee71c1f87049d91; 0xe084a43b5dcc21ba; 0x7629fca1dbecb31c; 0x2045d3572855bd50; 0x2c02f14d1a1e195a; 0x593b15fa28f1ebaf; 0x2e54e76c46e62d68; 0xf900cf20113a2a93; 0x99cbc37b00ec8d9b; 0xcd00c909d8a6c33f; 0x3c75992fa5a2d6e9; 0x93240b4793dd8f72; 0x83442db6f59ed563; 0xbd2de8dd7e49cb2b; 0x4fca70e349cf1b9c; 0x11ccf4c5d632a6c]%Z
  1182266884102822267511361600%positive [(2, [0x6640e225562a9371; 0xfbec026c483e37dc; 0x943b1ab4d8e96446; 0xaa4f8eea684962e1; 0x567d7a1e8bb10167; 0x757773057072b0a; 0xda9bfbbac646b1c9; 0xd55a6504d52ee019; 0x3becc9c681fd8799; 0x2bd9686e7d5d96e7; 0xc2d064a484d9a074; 0x8e6adf014bd28e56; 0x4459725acde7dc90; 0x8e027254277e9f03; 0x542d1654091df3c5; 0xc5a70f96c54580c2]%Z,
   [0x245246305fcfedf0; 0x16706230d3e6f631; 0xb487f1e3c85d3653; 0xcddabc38fa54afe2; 0x4653dde873c9223b; 0x6767b3c2a8f4bb41; 0xda968f28f2cb72de; 0x428875fee2fed5ac; 0xeeccb121a50530ba; 0xcdf62b6663d66123; 0x1023ebe5fd427d3c; 0x3465b2b6277326a8; 0x7de463d68e7a05c5; 0x939940480da9c668; 0x39439e20cca7fcc6; 0x49cad73b0a8d4070]%Z)] = true.
Proof. vm_cast_no_check (eq_refl true). Qed.

Lemma minpoly_POSEIDON2_GOLDILOCKS_20_PARAMS : mp_cert P_goldilocks P_goldilocks_ok POSEIDON2_GOLDILOCKS_20_PARAMS
  [0x47fc9337b080cbb9; 0xc1dc79491e7ecff7; 0x618ad8ec1cd7dd25; 0xf9c90b945ee719b3; 0x31b8ef1065e758f5; 0xa34a983c38443f60; 0x603ea430c15d83a1; 0x3f61e085c7bdf67a; 0xaa877e396e8b961e; 0x882fc30decc01337; 0x52bbf0ddaef29893; 0xdb8fd6a44c45b8f1; 0xfb62e6c63b61d384; 0xf57f8f2d381fb296; 0x782f18a746e46c26; 0xe6950cc49840be35; 0x8c8fe5a410cc70d9; 0x7911581fc9dc520e; 0xbdb0bd6e2e7ea806; 0xf71e3c893bdca463]%Z
  32433859254793982911622772305630400%positive [(2, [0xf593f1a07f7f4449; 0x32882c4d8bf03b86; 0x3043509bcea654e1; 0xe632eaba9c284d8b; 0x4dbf78bdde7e9ce4; 0xccc79647a133e5ae; 0x4dad4dcb661c8932; 0x44b952801ad1892d; 0x5407da20df6204b0; 0x5b3d3bb93ccf7ab7; 0x395f0515902b3814; 0xc6988d5a0f381446; 0x269db3f42f1360a8; 0x99aaa39767f89a9f; 0x86dfb811b12d7e63; 0x8cf4d52517d4338a; 0xea934c1a80a4e10d; 0x16cb9a0817d65f57; 0xd7023526453731f0; 0xce61171501895bf4]%Z,
   [0xd1dd5cf8e9db90c8; 0xb0599c0683f79ff7; 0x1a33b70fe52f6150; 0xad67e300f6e96649; 0x3e579e422b473713; 0xb9b5e53153107f1d; 0xea5c8489ced61cf9; 0xa0b83119edeca261; 0x17bc168c424d45bf; 0x5e34780e7079fe09; 0x5ae1c19a5b39aa41; 0x8361c668e7295f2e; 0x3c06c18635feb23d; 0x26860ef7a4798c64; 0xc5fb5d359c366a76; 0x2af2b547b845c60b; 0x7ecca1b8c0c82aaf; 0x77c71eb1ec4740ab; 0xb46b33a1375d3156; 0xd841f62c4170dbc6]%Z);(5, [0x780cf5a996d3a972; 0x52a7d85981da4aa9; 0x9fed5dadd5f34c98; 0x983edb4dfc32db88; 0xa4f35eca56ef5968; 0x3ff1288fe9dd8e4c; 0x6f0a53930acbb60d; 0x1a37fd0e49f8e7eb; 0x6df80f50aee864; 0x6bdbceedee42e7a2; 0x68778e68efd602d9; 0x3b3c3734ea1a5e23; 0x94bf3bf00626d929; 0x41d648e7e2afba3b; 0xd41d1fe38889f3e1; 0x1d484ce2fe3d1353; 0x737c7141e61d81b2; 0x267315b3470eb383; 0x112324d83872a330; 0x61ac996e9d693b61]%Z,
   [0x6fc3a4a4df38748c; 0x9d87eb34c1226161; 0x47507e5a3ab0e753; 0xb971ce7689f027da; 0xa040e1c344b24330; 0x50dafb693dbd11fa; 0xeeae7d6e272560c4; 0x421e563b07f7e87c; 0xdda6aee5ce974d10; 0xebe0ae8ce400337d; 0x54a98e737e304c7c; 0x54d8e0a4b9e86c39; 0xb4acc3ea652e81e7; 0x7076300f3202b470; 0x946024ea0fb16baf; 0xaf49eacf6ab20e2e; 0xbe0a729842bf60f1; 0x40922f2bad1bd5eb; 0x768061933ca54d35; 0x3a19e831cfbf7a87]%Z)] = true.
Proof. vm_cast_no_check (eq_refl true). Qed.

Lemma minpoly_POSEIDON2_PALLAS_4_PARAMS : mp_cert P_pallas P_pallas_ok POSEIDON2_PALLAS_4_PARAMS
  [0x392c251632ffcb8146b7c15aed6fc2716de0b078f93a90a3c59867df4e2b09d7; 0x1f2c6b97b463b7bbfc0d10d7d93898d3ccd0118219212956608f1971651b3d94; 0x48d6b5305670b0be3721fcd7770665bd924b6ab7b74153fa167e309a5fa69a3; 0x1c399fcafb36a1c4a683c2734d6fd7b1ef90e4b842c162740f5a986e6cfe78d9]%Z
  720720%positive [(2, [0x3232859189e26f020985daa6368f99647460d2debd2be1be3b05a4059cce0579; 0x3c2b35871e44ed398fc09b2050c309bb5115cdb6ddcd0b3e1f3cd633d31302b9; 0x1ab868d4791339400aaa2f1ea9ec15e91981905051c455c7282f7a0e4c24211a; 0x2dadf5f6a25dcd04a18fddf5a9aed6e1f8d7581286c6423c8db41d2076964957]%Z,
   [0x3ae7bf0dabdf39271ad7736eb7bab167069c4fe325676a2f7e5fb52f0f46f079; 0x2cd88f83422358995cd772bb71746c3c51a63839aab5fb70eb942ce1bc5d3fab; 0x205bf0b3b202db777dbdc3fb7edb4b8d21b92f8dc1c63e75a752d073b4c40d8e; 0x36696eda55d6f7f3cbed2306766ca92844b7431fd1e6573cbcc7a7511c6dba05]%Z)] = true.
Proof. vm_cast_no_check (eq_refl true). Qed.

Lemma minpoly_POSEIDON2_PALLAS_8_PARAMS : mp_cert P_pallas P_pallas_ok POSEIDON2_PALLAS_8_PARAMS
  [0xd6f75c4ad885271f961985a7000da7b6a325b1478280aeed1a78b9d2a34d535; 0x1bfb07e214b73573fdfc31a3ae8260c2ebe2b137b98d0bbd3f25c48cf9aef4f2; 0x13730d7f76510dcebac5a2c9c41307f9f9624f3aa8dda00e25277f32f22ec6d2; 0x1e94b9c1460fab288d29a3bbfea9762d107d2e9fa9ef60b5a607378e979d458b; 0x1f260352236b005de2f5f13001c77004b77c33938e90c57b40a937cb7cd09c0e; 0x2be92430883694f155232eca22aa934138ea9b4630c6f74beb31e7ed4e09e46c; 0x36da0e31931a9626e2d6d4d1ae5b8b1d9b159d1321a21dbcd13c7da7e245a0ce; 0x854fa4b5ea1e05b48d31594aeace4fadcff5669187d3fdb92b0c30b24ceb2ba]%Z
  144403552893600%positive [(2, [0x2d201b393f958ad9934ed422da39f636dc16c090f48da7676183b7216544a702; 0x305a06db634d503d9216f9d6a79c1f0fbb5f4d9aaecb7284bd928245cf85624d; 0x269355465936734f6f7accec3f688d95e5975799b3bdc3d34ff485ea905fad7c; 0x26f60478dce6b75fc6a64d4ce16c495e50af693e3d619d3761fccec90ea77f34; 0x23d783590e14b0402f89fcc287b5ac5b43dff848584415ec8421806cdec8e5a; 0x41abce01650dacd10fcc4a3cfd0cb66616e74aa41c780a68be4572687f91ede; 0x328ddb764c667aa3e5066719c91a2fe17d11f4d7909d77cc02f000026fde43cb; 0x37a9ede86d1770b91ee73dcb56f644c36fe5a6972a292600f38543d35e0f7b2a]%Z,
   [0x6c4cdddcfb9fdcfa5bc5bdba836ba72f532154bac475cd42f4439a4ed5536c; 0x209e57aff593d77847306d140e1b319b16ae90a81684af327642e73ebea24764; 0x99c97e2f4a007291d014737029a9e938b997fd91a6ab0802d9b8ba861ac87c4; 0x14a5901293cd7b62561f62dda4786d6ca19dc4c2f5520a3b087ead0f1b6b237b; 0x3ed9b59081c5c85c8f10ad385fb732637136fe8fb1685c5b91719d93609cceb6; 0x2ac6dd4dbbddf264aa1b6ea1d25ffeb5ccca6bf857c1f415981306f129e207b6; 0x32b6f755cfefb79a201047169e382ec2696f6d575481fc7fdfd245a7347190d0; 0x389a3f80eca3950d2d7a188d19747227cc7963944de4eb050e3fc3ce66d1dd45]%Z)] = true.
Proof. vm_cast_no_check (eq_refl true). Qed.
