(** * CertCyclic: certificates for the Krylov conditions of shipped matrices

    Generated by tools/gen_cyclic.py. *)
From Coq Require Import Uint63.
From Verif Require Import Base Field Fp Primes ModelInstances ProofKrylov.

Lemma cyclic_POSEIDON_BABYBEAR_16_PARAMS : cyclic_cert P_babybear P_babybear_ok (si_p POSEIDON_BABYBEAR_16_PARAMS) (si_t POSEIDON_BABYBEAR_16_PARAMS) (si_mds POSEIDON_BABYBEAR_16_PARAMS)
  [0x59ee23; 0x5bad57c; 0x59387c90; 0x192f30e0; 0x4c69e689; 0x1dfd113b; 0x19c8381d; 0x3e379ef9; 0x5d60ff76; 0x25cafb47; 0x203436ae; 0x5d453eb7; 0x651bc3ea; 0x50b04cbd; 0x3a914b42; 0x447457a]%Z
  1182266884102822267511361600%positive = true.
Proof. vm_cast_no_check (eq_refl true). Qed.

Lemma cyclic_POSEIDON_BABYBEAR_24_PARAMS : cyclic_cert P_babybear P_babybear_ok (si_p POSEIDON_BABYBEAR_24_PARAMS) (si_t POSEIDON_BABYBEAR_24_PARAMS) (si_mds POSEIDON_BABYBEAR_24_PARAMS)
  [0x2813b47c; 0x4301a7e7; 0x1bd34469; 0x407d78a7; 0x516e116; 0x6c24f530; 0x31d98035; 0x67a25a6b; 0x4bbba236; 0x528972dd; 0x7379fcd8; 0x215c95c; 0x73443c5c; 0x2ebfaf03; 0x14f01667; 0x2f708154; 0x769d82ff; 0x547eb462; 0xfb7b570; 0x29f2ad80; 0x6e346cda; 0x2e2dba8f; 0x38189aa; 0x5c1d139c]%Z
  718766754945489455304472257065075294400%positive = true.
Proof. vm_cast_no_check (eq_refl true). Qed.

Lemma cyclic_POSEIDON2_BLS_3_PARAMS : cyclic_cert P_bls12 P_bls12_ok (qi_p POSEIDON2_BLS_3_PARAMS) (qi_t POSEIDON2_BLS_3_PARAMS) (qi_mat POSEIDON2_BLS_3_PARAMS)
  [0x73eda753299d7d483339d80809a1d80553bda402fffe5bfefffffffefffffffa; 0xd; 0x73eda753299d7d483339d80809a1d80553bda402fffe5bfefffffffefffffffa]%Z
  27720%positive = true.
Proof. vm_cast_no_check (eq_refl true). Qed.

Lemma cyclic_POSEIDON_BLS_2_PARAMS : cyclic_cert P_bls12 P_bls12_ok (si_p POSEIDON_BLS_2_PARAMS) (si_t POSEIDON_BLS_2_PARAMS) (si_mds POSEIDON_BLS_2_PARAMS)
  [0x29b59375c37fa2ca47af7242d812c663326a0bcc284d834c0f89f678495158c6; 0x2f0ba6d036aeca8f31c470270b35a77cdc3ea2661fb82a8616931a7ae699fe8d]%Z
  840%positive = true.
Proof. vm_cast_no_check (eq_refl true). Qed.

Lemma cyclic_POSEIDON_BLS_3_PARAMS : cyclic_cert P_bls12 P_bls12_ok (si_p POSEIDON_BLS_3_PARAMS) (si_t POSEIDON_BLS_3_PARAMS) (si_mds POSEIDON_BLS_3_PARAMS)
  [0x220dff9719749466b4e1942a9ecf9dbcf1de1199bf7d20c4cd66edec06deba75; 0x6c77675453d46e229645cee695fdced49776fcc0c7dc94dd3751bc18998c3504; 0x4cd70e0b15fc6fb14fea95cd13b68f38a0b30a8fb3feb917edbc970ba5f37c8]%Z
  27720%positive = true.
Proof. vm_cast_no_check (eq_refl true). Qed.

Lemma cyclic_POSEIDON_BLS_4_PARAMS : cyclic_cert P_bls12 P_bls12_ok (si_p POSEIDON_BLS_4_PARAMS) (si_t POSEIDON_BLS_4_PARAMS) (si_mds POSEIDON_BLS_4_PARAMS)
  [0x4cd594a36d56dac4f497605f4019ffc1465e0f056aa2aebce9196f72b7fcc29e; 0x57795eab10cfe5f56a2cae40600d2f7a107f944331e151a1a057c54da39b672b; 0x444b87f61dd552364f25e8e294d1f9950d857677077dac197204a79d657d3bb8; 0xed28e41b6e96d2d226c69b3c085c55c23548ef9f3156748f1873ee2168a8a8b]%Z
  720720%positive = true.
Proof. vm_cast_no_check (eq_refl true). Qed.

Lemma cyclic_POSEIDON_BLS_8_PARAMS : cyclic_cert P_bls12 P_bls12_ok (si_p POSEIDON_BLS_8_PARAMS) (si_t POSEIDON_BLS_8_PARAMS) (si_mds POSEIDON_BLS_8_PARAMS)
  [0x3992f1f63576cba5884542f26d7a3d127466171dbbf8a34c3edb2ed20e5af87c; 0x3d58127a2a2bd95b90250f5977c8d55e6b3d9d383d3f86817fdbdf75358c284f; 0x2ef7d030eee6499cd35c0c00e205ad6298fe6269b20beb0f8cb6dbac5d32038f; 0x1df4a9572b0b9d942e5b738d9e73c0b7aa2538c6587dfbaa8078d4761e56c2e1; 0x4f50b5f492ede73283c6cda0e0cb6336c780fbdc151c11329cd3e1d3ed1e3a30; 0x2ff8bf9417a2f56812fee3e29f19c39402658aae5bf238514f1f23baaf7f3784; 0x365c9f1079c7abc1b9a0732f59e780678862de65e942224d16e73d89e73b67ec; 0xffecfbdf144b7005a98e98b24c0c95dc9cd0f276ac52d6c8abf79ceb1956d6b]%Z
  144403552893600%positive = true.
Proof. vm_cast_no_check (eq_refl true). Qed.

Lemma cyclic_POSEIDON2_BN256_PARAMS : cyclic_cert P_bn256 P_bn256_ok (qi_p POSEIDON2_BN256_PARAMS) (qi_t POSEIDON2_BN256_PARAMS) (qi_mat POSEIDON2_BN256_PARAMS)
  [0x30644e72e131a029b85045b68181585d2833e84879b9709143e1f593effffffa; 0xd; 0x30644e72e131a029b85045b68181585d2833e84879b9709143e1f593effffffa]%Z
  27720%positive = true.
Proof. vm_cast_no_check (eq_refl true). Qed.

Lemma cyclic_POSEIDON_BN_PARAMS : cyclic_cert P_bn256 P_bn256_ok (si_p POSEIDON_BN_PARAMS) (si_t POSEIDON_BN_PARAMS) (si_mds POSEIDON_BN_PARAMS)
  [0x11c5ecfc1ced0049e4095c09d2fa4af0c93a4984270af2135864392dabb66587; 0x2692a06df3739238e295f0d2b2a671a9b2f79b09f647ef482542470b3ddfe422; 0x2becbd208bcc230f432cf242456d05b2a0744a978431f4320bfad80d7bf0017f]%Z
  27720%positive = true.
Proof. vm_cast_no_check (eq_refl true). Qed.

Lemma cyclic_POSEIDON_GOLDILOCKS_8_PARAMS : cyclic_cert P_goldilocks P_goldilocks_ok (si_p POSEIDON_GOLDILOCKS_8_PARAMS) (si_t POSEIDON_GOLDILOCKS_8_PARAMS) (si_mds POSEIDON_GOLDILOCKS_8_PARAMS)
  [0xb32e1eab95847577; 0x3ab57779b00b0f85; 0xa050d344093607d4; 0xf9a49904b36adf43; 0x394dc02dcea2d60b; 0x3f2a1bc72a157524; 0xa34cc50d1125284f; 0x6c5d9600a3e4ac4a]%Z
  144403552893600%positive = true.
Proof. vm_cast_no_check (eq_refl true). Qed.

Lemma cyclic_POSEIDON_GOLDILOCKS_12_PARAMS : cyclic_cert P_goldilocks P_goldilocks_ok (si_p POSEIDON_GOLDILOCKS_12_PARAMS) (si_t POSEIDON_GOLDILOCKS_12_PARAMS) (si_mds POSEIDON_GOLDILOCKS_12_PARAMS)
  [0xca4318e0631de8d5; 0x251c558fcaf3166e; 0x978755b825602691; 0xf7152e6c1a64e3af; 0xf8e0feffee86f940; 0x1f7756feaad02264; 0x67fddff4aeed692c; 0x88e5c5dc79f46f94; 0x86bfcb113ab30f0f; 0x3e17d2de48107aa9; 0xa072ab11848335bf; 0x902dc7bdb34fa444]%Z
  442720643463713815200%positive = true.
Proof. vm_cast_no_check (eq_refl true). Qed.

Lemma cyclic_POSEIDON_GOLDILOCKS_16_PARAMS : cyclic_cert P_goldilocks P_goldilocks_ok (si_p POSEIDON_GOLDILOCKS_16_PARAMS) (si_t POSEIDON_GOLDILOCKS_16_PARAMS) (si_mds POSEIDON_GOLDILOCKS_16_PARAMS)
  [0xd01ef41bd8ac66c2; 0x128af88abdb5b220; 0x86fb394a1768dd25; 0x1a6bbff91bfa2f64; 0x8f6a619143d316b3; 0xd924a6a9bd1662ea; 0x2d4393c04adca7cf; 0xad3fa8b46e015c4; 0xf513aa3d41cec30a; 0x1a6e25b4a713843b; 0xe6ec1ab43d0be4ba; 0x3f51ef1a8c9757a4; 0x48132af8dd1c84dd; 0x90c7aa2fade8055f; 0xc56c20f35e350e77; 0xfc108285a5253bf2]%Z
  1182266884102822267511361600%positive = true.
Proof. vm_cast_no_check (eq_refl true). Qed.

Lemma cyclic_POSEIDON_GOLDILOCKS_20_PARAMS : cyclic_cert P_goldilocks P_goldilocks_ok (si_p POSEIDON_GOLDILOCKS_20_PARAMS) (si_t POSEIDON_GOLDILOCKS_20_PARAMS) (si_mds POSEIDON_GOLDILOCKS_20_PARAMS)
  [0x3b3785d46719e830; 0x6300bfab3e921825; 0xd221d4882c6b37dd; 0x95439aab42b31b72; 0x19271f607f4efce; 0x5d5f35a181c40eb8; 0xf19fd5c6c66795e3; 0x5a040135dd2ac5d0; 0x287666c0d6bdec92; 0x80516771f83ec2b4; 0xd5cbef66218a62d6; 0xa506579a1fcd2a76; 0xb611cb6f9c48372d; 0xa74665e7019cef71; 0xac18abe216e254b2; 0x8bfa59debf793713; 0xb6f5f75130c40130; 0xc2be7bf1e8e86ad; 0x383b816b418dc80e; 0x497b68400498bf96]%Z
  32433859254793982911622772305630400%positive = true.
Proof. vm_cast_no_check (eq_refl true). Qed.

Lemma cyclic_POSEIDON2_PALLAS_3_PARAMS : cyclic_cert P_pallas P_pallas_ok (qi_p POSEIDON2_PALLAS_3_PARAMS) (qi_t POSEIDON2_PALLAS_3_PARAMS) (qi_mat POSEIDON2_PALLAS_3_PARAMS)
  [0x40000000000000000000000000000000224698fc094cf91b992d30ecfffffffa; 0xd; 0x40000000000000000000000000000000224698fc094cf91b992d30ecfffffffa]%Z
  27720%positive = true.
Proof. vm_cast_no_check (eq_refl true). Qed.

Lemma cyclic_POSEIDON_PALLAS_3_PARAMS : cyclic_cert P_pallas P_pallas_ok (si_p POSEIDON_PALLAS_3_PARAMS) (si_t POSEIDON_PALLAS_3_PARAMS) (si_mds POSEIDON_PALLAS_3_PARAMS)
  [0x2da268344855659698b050e05422181f397aa144a14a8a1e4cd60a3b50b4cee5; 0x29a9a18118e826f7b1c9979148936413187353545fdeabfb203348adaf35400b; 0x44d116502c602f575730cd3b86eb8af6444141c2a227402cf1ec38cf360029f]%Z
  27720%positive = true.
Proof. vm_cast_no_check (eq_refl true). Qed.

Lemma cyclic_POSEIDON_PALLAS_4_PARAMS : cyclic_cert P_pallas P_pallas_ok (si_p POSEIDON_PALLAS_4_PARAMS) (si_t POSEIDON_PALLAS_4_PARAMS) (si_mds POSEIDON_PALLAS_4_PARAMS)
  [0x2b25a10024405b3b72498aca6abf9155fd82a82488d1a0d8e4deb1ecb4a69446; 0x1781265f1c6a49c33f6c28ee392da38d168308145f613865c3c651d84908ad0a; 0x3f01843189430efa8e4d8f5b150d9feeb244937a1d985f3a68156886649031d5; 0x191233fe7a6d626a634c6910879d7d4e34c03acc13f98cc56b42e8ca13d8cd33]%Z
  720720%positive = true.
Proof. vm_cast_no_check (eq_refl true). Qed.

Lemma cyclic_POSEIDON_PALLAS_8_PARAMS : cyclic_cert P_pallas P_pallas_ok (si_p POSEIDON_PALLAS_8_PARAMS) (si_t POSEIDON_PALLAS_8_PARAMS) (si_mds POSEIDON_PALLAS_8_PARAMS)
  [0x2c6e961270bde5f30bfde2db45c1c60ff491a330076077d3193fc861e7c848d1; 0x37b8da52fb34b1921e5bfca41ff7159244dd058ee617ca0dbba254de07b05025; 0x3779aeea735ac8bc15ccd05ae389e2c49f775e583978142b6ef7ce1d5a8f14f5; 0x2b75a3e1789441d6d9ed191ca9a952d1b402db5809027679667ded71e1349aff; 0x3f93b1f4c14ae6635ddcb8f49bc602e714e9f53b2e1b9260bec9faac5f68bd1f; 0x851019ce1f6a802aa1b0852cc7f9ebaa7b5c166649b3e840987653bc2c72c8f; 0x374aba56ec70f53a69fa9b2663a7db9c12f477ed0680ff7b77820164110a586c; 0x2ae4c0a2661f1eb6140687cae993470e13cb72df11b432ff722aa9dc4a1cc656]%Z
  144403552893600%positive = true.
Proof. vm_cast_no_check (eq_refl true). Qed.

Lemma cyclic_POSEIDON2_VESTA_PARAMS : cyclic_cert P_vesta P_vesta_ok (qi_p POSEIDON2_VESTA_PARAMS) (qi_t POSEIDON2_VESTA_PARAMS) (qi_mat POSEIDON2_VESTA_PARAMS)
  [0x40000000000000000000000000000000224698fc0994a8dd8c46eb20fffffffa; 0xd; 0x40000000000000000000000000000000224698fc0994a8dd8c46eb20fffffffa]%Z
  27720%positive = true.
Proof. vm_cast_no_check (eq_refl true). Qed.

Lemma cyclic_POSEIDON_VESTA_PARAMS : cyclic_cert P_vesta P_vesta_ok (si_p POSEIDON_VESTA_PARAMS) (si_t POSEIDON_VESTA_PARAMS) (si_mds POSEIDON_VESTA_PARAMS)
  [0x2d4ed5eb5453afce42f7e5ded593d563c17ff965d64995ae9a4d714f5d5366c8; 0x28cb876fe4c09b3265ca5449d97a4d928e47e71d927a1c74edf217db316b23a5; 0x298a74c89d0da954220c224c2f871ecc6aed2f4957f421176689c591fba590dd]%Z
  27720%positive = true.
Proof. vm_cast_no_check (eq_refl true). Qed.
