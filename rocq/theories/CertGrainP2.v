(** * CertGrainP2: checks of the shipped Poseidon2 constants against the Grain generator.
    The arguments (numbers of words and of draws, rejected diagonals) are those found by tools/gen_grain.py. *)
From Coq Require Import Uint63.
From Verif Require Import Base Field Fp Primes ModelInstances ProofGrain3.

Definition rejected_POSEIDON2_GOLDILOCKS_8_PARAMS : list (list Z) := [
  [0xe3f34a07a76a66c2; 0x8df25f9ad98b1b96; 0x85ffc27171439d9d; 0xddcb9a2dcfd26910; 0x26b5ba4bf3afb94e; 0xffff9cc7c7651e2f; 0x8c88364698280b55; 0xebc114167b910501];
  [0x2d77b4d89ecfb516; 0x332e0828eba151f2; 0x46fa6a6450dd4735; 0xd00db7dd92384a33; 0x5fd4fb751f3a5fc5; 0x496fb90c0bb65ea2; 0xf3baec0bb87cc5c7; 0x862a3c0a7d4c7713];
  [0xbf5f38336a3f47d8; 0x41ad9dbc1394a20c; 0xcc535945b7dbf0f7; 0x82af2bc93685bcec; 0x8e4c8d0c8cebfccd; 0x17cb39417e84597e; 0xd4a965a8c749b232; 0xa2cab040f33f3ee5]]%Z.
Lemma grain_POSEIDON2_GOLDILOCKS_8_PARAMS : p2_grain_b (N.to_nat 1882) (N.to_nat 118) rejected_POSEIDON2_GOLDILOCKS_8_PARAMS POSEIDON2_GOLDILOCKS_8_PARAMS = true.
Proof. vm_cast_no_check (eq_refl true). Qed.
Definition rejected_POSEIDON2_GOLDILOCKS_12_PARAMS : list (list Z) := [
  [0xb36ee79485ca4707; 0xd380199eddd2de52; 0x70971fc4e6f85305; 0x8e722f6e5dc32699; 0xa0883df133052b92; 0x8f86c6a3eb7d01a4; 0x763649c8b670bdc5; 0x830d5c82b808759b; 0xaa1da8bb91da02e7; 0x9bc9bf629e211c4d; 0xf0a899b10a4dea8; 0xb883bdcee7c6b356];
  [0x78c7101e7496ae1e; 0x2fd6c5a8bf1e5ca6; 0xe2a6e06e61fcec9c; 0xebfce7d5c5b3dbd5; 0xca2eeca4bb485d85; 0xc2b875537c42eb69; 0x6faf849976873328; 0xfc3fcb6e81ad4cc3; 0x180dd95503955a28; 0xd40f19a3c9fe1520; 0x49d178ddbf7fd96d; 0x3950bee2e10e0297];
  [0x437b90cf295be062; 0xa5cd126edffad23b; 0xdf58134c134491c2; 0x677eca229d9f7bd; 0x492200a1f7d83a3c; 0xafb58c9810a43645; 0x7659077c5a9c208e; 0x30b4bc83706995cd; 0xc98fa77bbbef3a3b; 0x84a82905750b3109; 0x72f2a02326aeb69b; 0x8d27a2a2d73a848a];
  [0xaa9e30a80bde4b68; 0x63abb1415e050474; 0x1c4bd1e816050a7e; 0x15d1502e4f469dfd; 0x53989d594b0c4cd8; 0x7a1a4c83cb7e377e; 0x1b52f8a9944e480e; 0xeb7b03f76a91a79e; 0x73a4fc9328c69e; 0x2c7b16f8620d9de4; 0x950d052963e46bc4; 0x8d201ba1a9c89fac];
  [0xd3502941bdf35503; 0x7c6dfcd5af8676fb; 0xf8a6cd02e92cdb0b; 0x6e7500f3a5464b22; 0x7637eabba4bdd20; 0x88b82717beee0e14; 0xbaa2b1cd3dd4c79a; 0xdfecc3aebec4cfa6; 0x7561087b0cff0166; 0x538fcac317a703a6; 0xd7d6c6eeeeeeea19; 0xd647b1ee441658a0];
  [0xdf4442110236c546; 0x559ef2c6dd73ec15; 0x4c0f5fc6c0dda3d1; 0x685010cc3100cea7; 0x2fb6ba8aa0344440; 0xb515f0a3ca75f1fb; 0x886887eaecb87c10; 0xf03ec3fd710abb04; 0xd3b4763e17f543ef; 0x50d9e5716e78083a; 0xbce2385cf8d74ff; 0xaf23032cd5f0e04b];
  [0xd366aa112b6159d9; 0x810a3ad3ac7979db; 0xa4a11d794be40a2; 0xeebf0cf23b668a3f; 0x600873fb011d761b; 0xbfb5591a02ff618; 0xa16e2a528910af52; 0xf6553653e2878421; 0xccbe7c7a601a30c0; 0xb18b214fe489f5b3; 0xe21017ab9e153425; 0x586099ede17af9a6];
  [0x385078b514f50647; 0xc02b3a9afb89883d; 0x6d3fbd3b4a9f1de6; 0x4b4d40a41b0f473c; 0x838f1887b8f31711; 0x9396895be5c58a41; 0x6247a479d66fc2e3; 0x13fe228a98f2d0a2; 0x5ba5fde765f9481e; 0xafb89fa62267e117; 0xfa4dc1bebcaa6333; 0xdbab590882b87289]]%Z.
Lemma grain_POSEIDON2_GOLDILOCKS_12_PARAMS : p2_grain_b (N.to_nat 3611) (N.to_nat 226) rejected_POSEIDON2_GOLDILOCKS_12_PARAMS POSEIDON2_GOLDILOCKS_12_PARAMS = true.
Proof. vm_cast_no_check (eq_refl true). Qed.
Definition rejected_POSEIDON2_GOLDILOCKS_16_PARAMS : list (list Z) := [
  [0x56045ba28fd1dbb1; 0x6851d67ed5acacd; 0xf7019bc57980d178; 0xb56dd650d860d28; 0xcd095759d842636d; 0x17180482b913fb6d; 0xf085ee1e1911b728; 0x44549837566a0bfd; 0xadd0271c8a246c59; 0x4292bcfb6e12c8ce; 0xb9335e2407759a82; 0x8eb37a7111d5618; 0x2b7c80b429d54278; 0x53ea5d3e1999f4ce; 0xedee2a45b06fa613; 0xacaf4772a36459c2];
  [0xcc0b4aa757746b2f; 0x52536a16f47129c0; 0x9b0abd0b07ccc510; 0x3d3b86ee7806a3ee; 0x533072e923c588e5; 0x14555d5ea03b4428; 0xd9e7702629648bd3; 0x273c5dc3b8b6ed83; 0x26315afb96c27395; 0xbabc1eb9506c3767; 0xd0281a2fb57b4c7; 0x2c709a3b40cce2bd; 0x9ab9a14cafb72112; 0x189aed3cd14d0f5e; 0xc941490f292f3566; 0x29d339bc4c4c5ed1];
  [0x51886b29d3b0d26e; 0x26ecf673ad01666f; 0x58f20c05df6136e4; 0xcaae02f891d9a693; 0x99ea2de13df560c7; 0xfb7e604032a6c89b; 0x9484e6a84078ffab; 0x33eb1f78ea2bf882; 0x305fba6c763df8a4; 0x855a940575a2f5cc; 0x3bbe96637669d8a9; 0xe0bf92ec5aa783b5; 0xd2d8f7be3c581792; 0x25d1dbdc95699756; 0x6811562dd7d380e7; 0xd2d0c07c8cb96126];
  [0xed7de2464aab8093; 0x28e68f8ff765cddd; 0xf4302468decf6; 0xf408a8da2ec86476; 0xa910d923652cbc51; 0x61ff0fdd666285f9; 0xd35de1fb1d92032; 0xc33f743297168e6b; 0x5280166634968f2f; 0x8029701a169b8c58; 0x442b1659f53fc92c; 0xb80d1df09583aae7; 0x3f68f6f41e84d283; 0x2dfd848230eeab8e; 0x464724542108bcce; 0x9cbd9af019eb40d8];
  [0x9cd056128537dca6; 0xfdc70699871ec1f; 0x91b4ed0840036aa9; 0x426a03ab3b941ae; 0x3620ce1d1da9d9ea; 0xa909c10f133b12df; 0xdff78cb9ce5e72af; 0x355a0507ea3d39e9; 0x33ab02012ebb8e90; 0x66e681125ad48d09; 0x754e7875a4cba209; 0xb4f4092cd96fe585; 0xe0beb61c71cd590b; 0x289d6191348815af; 0xc7f9310eebd89190; 0xc404c95833496b5d];
  [0x67cd987a2e477666; 0x83a966eaaba6f2d0; 0xa843095304ddb411; 0xab9bd2ffaf5ce005; 0x4b8b976e23ed8d5e; 0xe853009d6815ce32; 0x30b462f67decb8bd; 0x4fbe35dfc8561dde; 0xb182e2119eb521e0; 0x9a37c025983b008b; 0x9a8036d5c0b0ddff; 0x530e4069d0629e2f; 0xb5d7149987ef9062; 0x6a7120ccc56ca201; 0xd4fb060e7aed5a56; 0x9d01fca4ebb8856b];
  [0xe4bafe3340849d38; 0x632a3df994f0c09; 0xf084664f0b9c8659; 0xbed5c89cfd8f9a70; 0x2732cb3f2103948c; 0x56b9259a2307cb16; 0xe9c504996e7d3273; 0x1c8a11e45261ef10; 0xdd694710e5643a96; 0xf84538050c75ba9c; 0x6d21207c2dd2ffdd; 0x398156c24d3ee292; 0x5dfe3b4a26dfdb31; 0x5264c0dce0fc508d; 0x68db82e30df8c0b6; 0xbb69f951e7dae8f];
  [0xa4a00a693a6a9dc6; 0x7d2ed77fb67e1edb; 0x3a29153665b5deb6; 0xde05f000f7734b79; 0x2d3298b50e9b8ee3; 0xa2801c5da77fe8d; 0xe4dae42bd80dc286; 0x2a92a223212d9bb1; 0x4a9e772dc0e7ae65; 0xf91ad425467514a6; 0xc947db43432f981c; 0xfab35dc94da6ff86; 0x30e86b98128ca1d8; 0x73045f05de00acdb; 0x877a90860890a505; 0x904b699fae24adf6];
  [0x2fd36112b8db92ea; 0x37c8e7b709efcfee; 0x117825ee6efb194d; 0xef084994ba70e740; 0x3bbbb3e35ddff9ff; 0x94599a930c7d397e; 0x3c962b6062d37a0b; 0x8cedf279060e80cf; 0xe3d6fee148661835; 0xac6dc576dcf69a1b; 0x4395a68ba78162dc; 0x1509b345505d0cfc; 0x78ea2a2c0ff44da3; 0x3b8453ac216d9dcc; 0xeeea1ecb6e9739da; 0x998a5a4578f042a1];
  [0x85b4d1176041379e; 0xf1c548623858b53e; 0x84f76ecd462db219; 0x7d478acf677e40c9; 0x78bd49e6248a3f8b; 0xbaa176467eac8dc0; 0xa1d87308ce5f171b; 0x6ecdc783e58e6ded; 0xa27470d8a54c073; 0x303dedb68be27aff; 0x1283fa6b9fab0360; 0x9b9238f8990d3c6; 0x783fe452c827ce70; 0x51053b0a0b311026; 0x913af1029780fd02; 0x2768db16e909ab50];
  [0xe2711e4680cd49d4; 0xae38b891ffd47d23; 0x747a4123904482ef; 0x7590a5536989e07f; 0x597bcf699cb8f029; 0xcf1022c720e9c768; 0x6be4d569436457d0; 0x1ea4854422964af6; 0x9ae378da59b64449; 0x1111bdcbee5f71a; 0x3e5b8b050fbb6ffe; 0x5a14f21fc4493541; 0x1ce4f54dfef557a1; 0x5cd4599991cc8d4f; 0xc564b336f4eb42a2; 0xdcb6c46e887ac22e];
  [0x8a75e51054cd014f; 0xb0ff306616755d5e; 0x4dfee54c8dd19e47; 0x7ca27c634f5d6f20; 0x377a3f686a605c43; 0x942f96fe69242828; 0x63363826c868c690; 0xf622c7bbff21a41e; 0x7413fe06ae65a228; 0xf27e12c8f2b63a12; 0xcb9cdc2782a601b6; 0x4c355b11ae9d1501; 0x97b3caa2ca1983c8; 0x6f253eb18a69a3d6; 0x9daaad35dbe278d0; 0x9b154395fc9479de];
  [0xb88a4c10b121859b; 0x23f574023668b146; 0xe014dd76f0daeb2a; 0x47ca3455c99abbfc; 0xe15bcce7d6626f93; 0xe785e1d29b697a2a; 0x72f6e6335f2779b2; 0x63354be802a8d806; 0xe8680400a8b7da56; 0xa57878f6cd7dc1f5; 0xa3242e1666842e56; 0x9d4763931e5c80b8; 0xf5ad9042f9c2a2ea; 0xfde9819dcf522ccf; 0x2c1b7126142f99b2; 0x512a49e97331bcdf];
  [0xdc36f6f22179f9a4; 0x1287293218e2af1d; 0x9547747ddf7cd847; 0x27e9d7e39b288667; 0xf53ed68c44662e1c; 0xccd3913a837bf56d; 0xa54b0c67cee88c45; 0xc9204bc4f678e860; 0x3b2b3332135618af; 0x3bfe057360941901; 0x7ea1c40408898d03; 0x65735bc04a989af5; 0xc0d0f9741e308f84; 0x274505af11e8561c; 0xc01a31a2a8adf7; 0xae16a9b5d19bd9eb];
  [0xeb47bf1cf2f8c536; 0x6281eff11a965684; 0x16fbec6cb544e37b; 0x43661c50ecbaf61d; 0x48ededeefe678215; 0x41454e2ac92e020f; 0x677ab8b3c9ba50e2; 0x7fe3981c7c556ff9; 0x35c8b8589248bedd; 0x8466ae507b53ba99; 0x3c1ce7a6557cd52c; 0xb547ce487a0afa54; 0x5edb6bc9e4c7961; 0x50573b9cb7beeefe; 0xb26c40ecb1535571; 0x4a9d2fb483061eb1];
  [0x9738a691d84dd72c; 0xedfb4e4efb79d5f8; 0xbfdb2e3c4d600b54; 0xa44a4620bb87c023; 0xedfd03c8933b6509; 0x6409ecdd7113b38f; 0xbc7dd042ff7eb60b; 0x1c41de22a36b7a75; 0x177fdf40e9646ded; 0x8eeff87cd83ea10d; 0xf4ba0b7ed08bafeb; 0xe5b3ede57adb7f0d; 0xd8bf37d380f76ba9; 0xb5e07f4e8f36d2f7; 0xf2014366c2e22b88; 0x876f5726bb600720];
  [0x2fdd356780329918; 0xa60294429a5d0408; 0xfd714f70b67a879; 0xd3efd294503511e7; 0x9ae10ed6c78b28c6; 0xae221f0e399fa644; 0x7d75772d7d8bf011; 0xa6321da6233b471; 0x9bb7b0e6658281be; 0x7b16cc63c27fe8f4; 0xbf53f47f87f56a6d; 0xe635bf90172d71e6; 0xccf02f48250d3fb5; 0x3d36aa7d16141aaf; 0xae1eb04558b772b4; 0x1d58ab28e8083c4f];
  [0x1d9bda2e12d3e534; 0x423dd55f154482ef; 0x72b65b610654133b; 0x487d3548f56a85f0; 0xd8c52e8889a97c5a; 0x505ec42c4db39362; 0xc217b41e7d0ef6e7; 0xa6fd6c3cda5c8473; 0xff5dd9dfcd788211; 0x303ff3284e6f7308; 0xa1aa11255463d565; 0x78e87d336ccc6981; 0xcbe6f13680f9259e; 0x43ed60b3f0605305; 0x285bb9012ad02b65; 0x5e3be4930ba77f91];
  [0x7d0b7f76259514de; 0x196f1021318d4d14; 0x32aeee488c159236; 0x7042b7b5a3393989; 0xefe7a9290c7ff77c; 0x429dc22cfde71457; 0x70a0a8b0cd2e4e92; 0x2a66e414a2e69a2d; 0xeb6d94e92221051c; 0x704157837371e9be; 0x8a085f6f2d59f8bb; 0xd195560e9297a989; 0x8ef6701b17a6930c; 0xbdb996211667ba57; 0xe240f4c1c4b2ad06; 0xfc2f101d588e0907];
  [0x791d9d059d498e68; 0xd21b9dfad1421e14; 0x3f40701396692e53; 0x837e836ab5a382ca; 0x6b7358c4631537d0; 0x7e3b633af145a310; 0xbac53ee64fd8b153; 0xb5e07a6e5b2b5242; 0xe754f45f540247cb; 0x23ada0ccd4a9e8e9; 0x5bc4109d42b4c5c8; 0x754fa15d43d39e06; 0x9a99178df6fb2088; 0xe8fca9a16c030c7a; 0xbb9f10f3f43aef47; 0x11350f1b54ae9adc];
  [0x665e172a588ee1db; 0x8302ce9f0ee5277; 0x494e7e049554756c; 0xded40cca27f6c2ae; 0xfa62692d0d41fc3c; 0x7b2f0fdcde013e9b; 0x998315134e1d6a9; 0x5e59c08deb844be8; 0x3a37c9734e09cfb2; 0x31719e2d681d7414; 0xc0ea90fca803ecd4; 0x47d79ab4321ec7bd; 0x6af8b3808500ddfc; 0x2d367f7dc65f5b22; 0xb9c243bfb0a55b34; 0x2428382cf8334853];
  [0x60852be95f52b7e6; 0x9bb4af6c808af670; 0x93f82332e3fa107e; 0x2270b69b2255dde7; 0xbc2212d2e3ca6c4b; 0xef68abfb16fa9b3d; 0xb6a69549de3e5d87; 0xd120bec91d18eef3; 0xb5ce7284ed13d74c; 0xe0b6df9c9a1cc9fb; 0xfd42043292a3999a; 0x69b839c0cbd53f3f; 0xf0c6d5fabdbaa2ff; 0xd84391115eac602b; 0xa2b127088f5bebfd; 0x9eea15bf8a7bfd87];
  [0x124da8e4da240d16; 0x55d4ba07c442b4bc; 0xfdb45f885a56b443; 0x8255e0958818c96b; 0x155fc37d74a68612; 0xaa8f7cf2f5c1f948; 0xd9c69c9df9d8b096; 0xa791819fef6dd3; 0x69863030996666d5; 0xa17364f92d80f9c; 0xd9322ac5f3efe61b; 0x53f6d58e937c47b0; 0x1f438294712b9638; 0x7fea7b8f7dc6f723; 0xd0df38b057651639; 0xb510cf7b59f1ba51];
  [0xfbde5741d53f1434; 0x61f06d4f2a8c00f2; 0x685f26ebebe2e6cc; 0x6fff90318c990e1d; 0xba440e0b54aa4154; 0xec1b9c5b9a6d8f4d; 0xbb458b311d1c1924; 0xc90d48c824a7048d; 0xcb9775790ca3ed98; 0xbb9163b5be8d56ac; 0x6ec24fa99c4243a6; 0xab4e531e7e346e5d; 0xdcb225524bc8378; 0x409a22967cdac03e; 0x1623782123376b46; 0xbb88916285700274];
  [0x2107d9152aeec258; 0x1caa3f7080ad401c; 0x40d77710ebdcf579; 0x786d4a413bb2048b; 0x257bb0d6f6c86d48; 0xada8117b1643578d; 0x3b45cf709b6446ee; 0xfdabfbedbed522; 0xe56586a2f373d603; 0x63d495ed388f62ee; 0x508bbb8f1b2195a0; 0xa69686c91ca396f0; 0x45dcfab7bc94d18; 0xe33f36e829f43984; 0xaffed37b1a3865ec; 0x87ce92ae5fc9f2c5];
  [0x61d66ea3be422595; 0xea2c73bb51eb13c5; 0xdf1bd0d57d71ccf2; 0x5cfdf8c73c185d52; 0xa72c651b6d051a4b; 0xbde0000c586df3b5; 0x743a715f4716ae75; 0x83a796403a32878c; 0x502882b23c1f475b; 0x7fea9467de57e9e5; 0x40639314e5f50271; 0x7d728e68e814c35a; 0xe0d866cbbbb9ee34; 0x3360b6f2276ced3d; 0xb48841675c637d74; 0x1ab2b1981a2f3a04];
  [0xac271ed81d1f1aa1; 0xa1ee289eba41e3ef; 0x43da02599cb834f9; 0x9b4ebab764abf104; 0xdaf849fcff04d13f; 0xb7b53b89a65ec3cc; 0x76ca189ae528756; 0x1fc06de910822340; 0xdcd267660a7e67f9; 0x75e1ba531b49b5b7; 0xe9d8f346af7e5d5b; 0x76d603fd9d802922; 0x89d26119e7f3cdfc; 0x60a2453d5dd7c18b; 0x1c267e75ba11b990; 0xe966f50d7dcdb0ad];
  [0x5a9c27da3d1e0592; 0xb3373be7a16f0caf; 0x5a6c109db17caf53; 0x5517c3bd6e038218; 0x6f4858789a48b294; 0x6bd2acf1162015a0; 0x39238a3c1a4ae305; 0xbcd1b4229f0098ab; 0x811ec46532ffb254; 0xf313123caf1fb303; 0xa9adee7f869fce76; 0x45a7d68b3650f8d1; 0x96285535b24b5236; 0xd5fcfe56059e9fd4; 0xb848a04eca360ffa; 0xf1abc057ccfbdc4d];
  [0xb6b34806b4b8434d; 0xc423c208f5b27be3; 0x6dc9c0301a9a5d09; 0xd173c563481cdda0; 0x3cf728adeaec20c6; 0x2748a014791ae540; 0x472c672c8b7d41be; 0xc7affa34056d7387; 0x858a3b1bec05f598; 0x71ec81a98f2c6cb0; 0xcc2311d680af3e11; 0x9602a42bab0f8e2; 0xe0afbe416655d004; 0x90a2b4b873a7a3b4; 0xbe090ac4ab64cf6d; 0x76670d555e084c97];
  [0x1d7786a407a12fe7; 0xa3f2a08703b4255f; 0x5f07a77ed1c63d3e; 0xcf861e0d3cb4724c; 0x2ae9de87c3d32e1b; 0x2291604232d8d981; 0x4f86c2e980f34187; 0xc21047bd2e5ae38f; 0xee3f7b1f2a5f5a68; 0xd81b8076762700fe; 0x92fe50b7ea1ea972; 0xc383c72919ee3fdb; 0x32ced3185473754; 0xac10a13055cf5b61; 0x7d65c3a2999c0ea1; 0xeaa63ce785a27b0b];
  [0x60fdd4e360cced3c; 0x44d2caf66db65ec8; 0x56b95f4f7c4e0766; 0xb15afd324ffa126; 0x2b8eb2bb283fbb94; 0x285b9c88e83d35ae; 0xc580e94af5501fa7; 0x4c879c09f327fa8b; 0x616ff38a85dc12bb; 0x7c47e569004aa221; 0xca0db27cea7685ac; 0x2ccb21252246a67b; 0xc154fb6101c24814; 0x9b106ae4dd91f50e; 0xe5e73e40e45fbb7c; 0x62e4bd170b0c0b5e];
  [0x5e4c891e597049e0; 0x6a9c12de3cd61eb9; 0xbb6aee8c56c5db70; 0xad92a0e54195830d; 0xee607d3a2e8ad335; 0x7044521abca49bd0; 0x7d0f748041c29c9b; 0x73c0286b170b8fbd; 0xa7d994f8be7bc671; 0x85e29ded7fee98e; 0x4f1fa045f2171375; 0x4492eeed6413dc87; 0x3810eeedba023c5f; 0xa18a560135267bee; 0xef030959d12a782d; 0x858161b1c5e9b4f1];
  [0x3034364edc91f4bc; 0x1a49c8341f3014ac; 0x9288010bd385554b; 0x3874fdf8fa6d19f3; 0x625046ea22b0ddaa; 0xe2ea78e0cde78c29; 0x7616e220318b6fa0; 0x976b8bdd3ab63248; 0x41e3a12be69ffd37; 0x29aff4671f4073d1; 0x9116d8e4af6b9050; 0xafc98224839b5ceb; 0x3b87da0aec69fd4a; 0xfbbcb533656602fe; 0x67ad45085aa8214d; 0x347019bf86eb5c3e];
  [0x6caa066b9756ef1f; 0x98739ff472e4f15f; 0xfa3aedbabd5a3546; 0x288375502c2bb8a7; 0x523472ab946c693; 0x9a5e20b0128d5429; 0x18c33b973fab48d6; 0x285d7bb19fdebf96; 0xc441180ad2ccb3bf; 0xe74e6a39acfc76a6; 0xe84a4252fef96f37; 0x2aa79834872bb006; 0xc6ffb9a726f69e73; 0x365a32a1f295546e; 0xa385589d4274ec77; 0xbdce3f43a7d188c8];
  [0x87a9c57c95fbd97; 0xae160a3db276eba6; 0x8a70fd4936bc46df; 0x3055b7722e590981; 0x7ff2c4539605c755; 0xba13337e98e6be3f; 0xa503bfbeb02fe7ce; 0x2a71dd6ad0e97978; 0x566a44557db6aef9; 0xa59e46ce5f8e003b; 0xff1cb59c06729fc3; 0xbfea4820b0ff63f3; 0xfd37f614ac643ea8; 0x527d57bce61cfc08; 0x7659ec4e826f0dd9; 0x71f392edbc9998d0];
  [0xc941c5d1d235e71b; 0x7dec0c6130f3bebe; 0x31b7cedc0cef5c76; 0x23c6a7deb766efb2; 0x3e3040c161261ea2; 0xe61b322584c81e05; 0xc3f0603ccebde795; 0x1e14e5b80f28a195; 0xf1f20f0155cff48; 0x1a8a2e4bb76d4962; 0xff84e54205f3885b; 0xa17bbed80f1f73c7; 0x523c09f1f66669e0; 0x3a75e58b5e014163; 0x8f27e191b7717574; 0x6859a86b3703a864];
  [0x835a2bf8ce968fef; 0x63465cfc078333e8; 0xa88efe14eaa7f783; 0xca0c75915a5c2678; 0x5340a1bfbe40758c; 0x80a786487c954cb4; 0x2d21e5b1d7016c69; 0x65d499cc38cbad50; 0x6c35a624e58a79c8; 0xffbb8a91d37b68d8; 0xafe3d03502cb8bee; 0xee8e5cb86649e80c; 0x5fb6f0c2fbac838b; 0xffa0dd230ea4d990; 0xf3a0f5996f372046; 0x60de417b98d0aea1];
  [0xa41cafdec120896e; 0x902d942e88fc39a; 0x1d4fb47b2d3b6fcd; 0x36edc367447df518; 0x3dc1156043c2d62f; 0x24b8dc45b0d2f7b3; 0x7ebf03998aa54639; 0x24a41c03a045ca64; 0x899a6ea289399661; 0x3daa7dab457e58dd; 0xac3c30f3259e6f4d; 0x29414b93a2bffddc; 0x9a9992dd9ec51b26; 0x5562eb14f8442ca0; 0xeca18eccdccec00e; 0xcf4c5bd4d45dee2b];
  [0x3f3b31557182d631; 0x4e8defb54bb117b4; 0x6b4016a0dae47256; 0x85cdf0bcd735de7c; 0x3215f2fc146416f; 0x23bc25b7db49cac5; 0x3f8aa323481e8b32; 0x296cc5d57806b926; 0x8b3be8a5ec999741; 0xfa0d4acd04a1ef4b; 0xae2745215b7aa9dd; 0x59e9663945e260c8; 0x13c10979a0186086; 0xc4d6c98214c64e47; 0xe6df2f14b849cc71; 0x8e5d55fb2ab5f959];
  [0xcec689f8311854d6; 0x4af8589494137bca; 0xf4128271a92e07da; 0x96597267ed6499b1; 0xc8bc797937894ebb; 0xb5e888950de3431f; 0x10d99c6fd42bbecb; 0x9d57a0a316263d63; 0xf218d720d5b47c96; 0x1fe26e63045f94ed; 0x9eee79924aada2dd; 0x2daf2042449330e5; 0x427903c3e4ddafd8; 0x36d57d27454f8b07; 0xc0bdaf245aff4b92; 0xd48ef265b449e7fd];
  [0xe73a475aab8a3a3; 0xc8813c2d612db2ee; 0xd7dd0f220ce02108; 0xd4f27f522902a92f; 0xf444ff2ca17e9af4; 0x943aecd8f3ca6746; 0xf1900e4edcb4e20c; 0x8a24532f5097c145; 0x717971a22f891deb; 0xd6b485c1a0f6fb61; 0xc6fd29058aba37dd; 0xa28935ba7cadb9dc; 0x4c579da7b3237e9e; 0x2aeb8e792f04723c; 0x935099961926a7f; 0x190b01e23d1b63f4];
  [0xbf2d4de853acf0dd; 0x84edf2b3dde63abd; 0x51039692197b3f5; 0x7c4b8b1041c7239f; 0xeca5d1d342962cf6; 0x825860f99a7ae2d4; 0xf3f260f5670c3700; 0x92dd645a95b3eaaa; 0x28190bfbc1d6a98c; 0xedf2999df699b024; 0xfde0cd081959fa54; 0x6a7f21cb7b17fe7; 0x7ae741e228d755a9; 0x77d521234ca26c06; 0x702c84c92071ebb3; 0xa196e9047f40d219];
  [0xd42799d817665740; 0x86a45e6a0fd43840; 0x4641091eafe851d3; 0x21fb4d815dd2296e; 0xbf922e05d452f970; 0xb7b6f82b65573275; 0xc5d9829d2d2e224d; 0x18c58bbee5414b39; 0xa1a6e6b83a9e1141; 0xa3e66db9f9aec112; 0xbd8e2a56fd74c5e6; 0x9f82988ebf2d211b; 0x42fc8c3d1ccd2078; 0xc41fbc5d9e47c0de; 0xebd520b71f4b857a; 0xca2ac25d19575832];
  [0x40669807f70f3e70; 0xd66b2c522c383318; 0xd9b76775b69801d9; 0xeaee19bc71e5af49; 0x1c74494a35f3bdf9; 0x7d90aaf606efaf0; 0x82a8c3605ee8382d; 0x3acb6c455c5d998a; 0xf1ad705cffd482dd; 0x44b4cda933a94e30; 0x8c8867ac2e6d743f; 0x6bc32bf300b6ed35; 0x1a782891decb2680; 0xe7fc2a4987bf5d1d; 0xbed0d1c74a4d80c6; 0x9c9dfa2a66a23de0];
  [0xaa84c092711107d5; 0xeb00b8f7854f1b22; 0x875807da2b87a07; 0x25d4ff4e360e2cd5; 0x821adbe35c8834eb; 0x19833d8f541d1383; 0x86d5fbd1254ce0bd; 0x38d74a8011803e2; 0xb6e854c809c77f9e; 0x98e6e95c3180a873; 0xe9d18529c5fdff5f; 0x361f26b0e141e1b3; 0x589e49f81ff502f2; 0xdc24feb8b29536f4; 0x4ab2b1f3c3846384; 0x6ff5c77fba5d723a];
  [0xa92eee40f896715d; 0xe7b9dbe955ffce50; 0x840c60873940f091; 0x2c4fe7b5de976ae1; 0xe55e33f10b8d464c; 0x26790d2a87dab037; 0xb41535e404f2654e; 0x689311cdc811a261; 0xf3432dcbee01000e; 0x5c4b9a0f47bbc8a8; 0x783a82de7333f85a; 0x47609fb6a0086112; 0xf9aaee69ed273f2c; 0xf5a76e8c18945750; 0xdc840be69a7e3885; 0xc4437908d1d76d14]]%Z.
Lemma grain_POSEIDON2_GOLDILOCKS_16_PARAMS : p2_grain_b (N.to_nat 14478) (N.to_nat 902) rejected_POSEIDON2_GOLDILOCKS_16_PARAMS POSEIDON2_GOLDILOCKS_16_PARAMS = true.
Proof. vm_cast_no_check (eq_refl true). Qed.
Definition rejected_POSEIDON2_GOLDILOCKS_20_PARAMS : list (list Z) := [
  [0x14732d2cd6118ac4; 0x9b3c929e7a89a835; 0xb07b718391af8d79; 0x18bb3c97d6f645e9; 0x83b747ca7e755071; 0xee405819feddb87b; 0x77a2dbf22f481f11; 0xa220985d85960d31; 0x5c878a4582e2a817; 0x5fb8b62b66030461; 0xb0bdacdf6283c26; 0xd9cf4795edf6b249; 0xa6a95f3d2d213680; 0x8a5b55f189795c79; 0x41f49067d3968fa; 0xb24f6c6a3f24a3f7; 0x5b4d51e88c5a3657; 0xef670c3b992758a5; 0xc41a5246017dd328; 0xefc6b6e7863602ef];
  [0x2da8a64e1ae80204; 0x15a671a551a3a73d; 0x7f8852456d1b7b68; 0xddd1b1bd9a71b2c8; 0x24498c09213fb0d; 0xed68b0d5c3b6f15c; 0x7ba7b34aa92de29; 0xffb1cd9fcf151754; 0xf250072124c448b9; 0x8389cbeb65af8463; 0x36a9897b51d7bdc8; 0x76b0e647fb6cc0c2; 0xc56d6c2bb7bc79a3; 0x952d7fe47b3378b5; 0xf186baa010da43bb; 0x3e0e133d380a9bc0; 0x8b7269d7de5f7323; 0xce1bcd78c50f8001; 0x18eca96305c34837; 0x3da2eac5985f23f3];
  [0xe04489357a862b74; 0x29c46131bd408631; 0xe72ad50992fd1357; 0xf7b250440f9519c5; 0x72f9239ae682612; 0x7a3c6264e7b064c3; 0x3a7cecad8b28d087; 0x7306f8e3aebc81bd; 0xbcd839b1ac4b2d6a; 0xdd7e8bab6f18d543; 0x9805e60dc43b0f57; 0x937872bc039e1601; 0x580c96b021adf837; 0xd2689bdf52f78cc2; 0x7540a5e10d9aa4a0; 0x6d5ed77f6d2cc10c; 0x22df00388ffec144; 0xe96bf7c02ecc4199; 0xc6b4e31b2e00aeb3; 0x6f73b9c475265793];
  [0x8eacd62105a00218; 0xacaa97f044afbdbc; 0xa0fae9ae96a3e3ed; 0x72ccaa065064e48d; 0x1d762677c36b407; 0xb229af63ad3cd113; 0x90798cda41f3bd6b; 0x7125a484cfbd152c; 0xb83532bbc2066678; 0x675285e7f57bfb2a; 0x8bbe10866b08b3c; 0x4cbbb1f4f0d08f91; 0x5ebe12484fa6bbd9; 0x8c55420d33d508de; 0x27b5041a7cdee0f3; 0x308d58b41d2aba04; 0x77d83ead18e728fe; 0xfc574a2ca09c1270; 0x7e30b5714415b771; 0xc2de30265fc05715];
  [0xb33464acc711b082; 0x60d7fe2590f857b1; 0x3aae9f4045dd0791; 0xc54971b1259d4e56; 0xe22d536e761628dd; 0xc48ffc3b75e89a54; 0xb047e76f04052e8d; 0xe1a595c8a79b3d87; 0x3a950686f7563c6d; 0x59e83c319a2bfc19; 0x5bb0c5e25c7b1ac6; 0x1e5e01b95074e4a4; 0xfc5d7f04ab6c09ac; 0x7d2dd3c494c5cf06; 0xc5e05aad206892ef; 0xd96bfecb835c375f; 0x4a5addafbd78a250; 0x5054b1f950406ad9; 0x943ce564a7180c2e; 0x7a690a98a68fa02];
  [0x2a030072df73126b; 0x40bc3b169b453141; 0x87c59a92ad69ed7d; 0x6d6abe9956aae58; 0x28d91d787febfbd2; 0xf46c20ef81c1514c; 0x30aa2198a18ba1e7; 0x5e95555689ccc520; 0x2e8c4b48e2575521; 0x276316cbead7f54f; 0x84656c734e18ae97; 0x63eb7486f8140d0; 0x32fac906485c482f; 0x12d5f15dec028c1f; 0x9948ecae481d2c3a; 0x65bea6791e764884; 0xedfe5add72e881dd; 0x378fda86b0e6f41f; 0x19a31ffc79c62332; 0x284428507e2cea2b]]%Z.
Lemma grain_POSEIDON2_GOLDILOCKS_20_PARAMS : p2_grain_b (N.to_nat 5132) (N.to_nat 322) rejected_POSEIDON2_GOLDILOCKS_20_PARAMS POSEIDON2_GOLDILOCKS_20_PARAMS = true.
Proof. vm_cast_no_check (eq_refl true). Qed.
Definition rejected_POSEIDON2_BABYBEAR_16_PARAMS : list (list Z) := [
  [0xbe9313a; 0x7d727af7; 0x21592938; 0x6d39ac05; 0x1cb929e6; 0x7504e146; 0x5bb5b26; 0x1a182621; 0x129acb7; 0xf925fd3; 0x615bdcf0; 0x4d0686a9; 0xfd6440c; 0x2a6e7d07; 0x140ea354; 0x6e754ca];
  [0xa30ed7d; 0x11d5b9f5; 0x5fd8cb87; 0x34e5a9cd; 0x16dd2e49; 0x4494e08b; 0x23d88c52; 0x3a093d8a; 0x402ac944; 0x46444226; 0x6dc1efa3; 0x2f629461; 0x77e0f6c6; 0x21920470; 0x2385c5d2; 0x480374c5];
  [0x5f570f5f; 0x318e2268; 0xfc2fdbc; 0x553c94ea; 0xd8eacbc; 0x43bab284; 0x7b16a066; 0x4fa93dec; 0x4fe114db; 0x656d0ab3; 0x775f045; 0x5ea6c684; 0x4f8447c; 0x68fc16ff; 0x3e0dfdf0; 0x2f8a1d04];
  [0x61f3951c; 0x2f92cb02; 0x204e8cdb; 0x687c9fdf; 0x3010d096; 0x27c99e66; 0x20984799; 0x59346f8e; 0x76b19839; 0x4e897114; 0x79c50c50; 0x32ed764f; 0x97401a4; 0x3b4e414; 0xef721be; 0x148d5133];
  [0x186ff0f3; 0x4683accf; 0x34f4431d; 0x3c930fd8; 0x50ede262; 0x38446cdc; 0x79cb50bf; 0x4b1392b6; 0x280ab5db; 0x9e84fab; 0x4bdc713b; 0x83fa00e; 0x5788a978; 0x685349d4; 0x1dac7359; 0x7f212436];
  [0x5b9eac2c; 0x72e0224a; 0x72fc6025; 0xa614c0b; 0x51e74ff3; 0x391598b9; 0x2c54352a; 0x506a28f0; 0x2d04b6d; 0x5a437f70; 0x54d9d369; 0x7990d724; 0x5c1f0776; 0x60f55ec1; 0x180ef798; 0x56be67e1];
  [0x681bc8fc; 0x65ae63c6; 0x240ab256; 0x3e62aaea; 0x46224af5; 0x4eaee2f0; 0xc09758a; 0x12a973d6; 0x100e9fee; 0x7fd5ef09; 0x1d7cd264; 0x3d7e3228; 0x259a060e; 0x7d988ad4; 0x74a8d27; 0x49620613];
  [0x52eaea48; 0x63ba465a; 0x8c4f74; 0x61c634cb; 0x2d98b6e6; 0x253bc6a5; 0x3c848dad; 0x540949ea; 0x4f862ddf; 0x5fa93a3d; 0x5c659ba8; 0xf8b2954; 0x5ac41088; 0x770631d1; 0x35f6230e; 0x54e9cf7];
  [0x74eec058; 0x4c83003e; 0x7e0b160d; 0x570ddeba; 0x6c5e594a; 0x34cf7599; 0xeb63eb2; 0x713e2dda; 0x6e59941c; 0x19707b6b; 0x129437ef; 0x57c4db39; 0x366cb7ec; 0xe6335de; 0x5e1374ca; 0x7e5054d3];
  [0x493cf6d2; 0x2ffe3703; 0x19dd3b51; 0x3d64878f; 0x79829832; 0x3ef43ee8; 0x64723e7c; 0x4fe5418a; 0xf7b671d; 0x3f3adb8c; 0x1830fd89; 0x7b423f94; 0x5b15366e; 0x3ca9204d; 0x149cee3c; 0x547bb959];
  [0x4d6a44a0; 0x771612ca; 0x3f5bdd26; 0x23a3d984; 0x170b07bd; 0x5a2a5094; 0x6e7e68b4; 0x1f3c8320; 0xffbb8b6; 0x5ebe7442; 0x45ffc700; 0x64d1f7b6; 0x1b30b661; 0x586ea500; 0x503111fd; 0x72b41cf7];
  [0x6468ad65; 0x64c713b1; 0x450b1ccd; 0x211e6028; 0x300b11ac; 0x74226654; 0x56308a44; 0x7ba4f256; 0x5aa55b4a; 0x52f2bc9a; 0x1a076e50; 0x5eb92894; 0x13baaf6f; 0x4d19b625; 0x30d25297; 0x52f00c13];
  [0x2a6753d7; 0x40bdd8de; 0x22acbb98; 0x77e41654; 0x23ab6b0f; 0x629e7d6; 0xeadff; 0x64cc8e81; 0x364fc012; 0x43cc48cd; 0x611baf29; 0x48bdf828; 0x1a8ab06f; 0x112ee5e0; 0x36e01dc; 0x18106634];
  [0x716681c3; 0x1f3b0e92; 0x33f19815; 0x6618f5f5; 0x75210699; 0x3bf4c72d; 0x61d96460; 0x213c18b4; 0x145d4dcd; 0x452dc0f1; 0xf7742b3; 0x782f0ff3; 0x389b2b09; 0x4515402e; 0x6ee1dbba; 0x56045a3d];
  [0x750bfd7b; 0x1be5acf3; 0x134a4aa4; 0x1e8e70a1; 0x4b8a3882; 0x5a3eac0f; 0x69facd33; 0x10e08a71; 0x73b401b4; 0x2e042d6f; 0x62fcd7b2; 0x76dc2530; 0x60c431cf; 0x57b5bd15; 0x58117545; 0x25836947];
  [0x4c3ebf56; 0x59230121; 0x63671d00; 0x3a681456; 0x72d4b3ff; 0x2df34c5b; 0x97ea23e; 0x602d0d63; 0x541b70e0; 0x6ced15b0; 0xc3059be; 0x5417099; 0x3238f63; 0x5a707a33; 0x9bb58c; 0x45690584];
  [0x5b280fa8; 0x5f2a7588; 0x363e6fec; 0x455008e0; 0x72fee45; 0x5531ff13; 0x50f193d9; 0x646cd474; 0x196b20cf; 0x24a9c1a3; 0xb372a99; 0x9e8b776; 0x413afb5a; 0x17e2f0ee; 0x7bf98ea7; 0x4f699d92];
  [0x5b482b2e; 0x4e0313bf; 0x5763246c; 0x4d9a44cb; 0x9089f87; 0x13d2a166; 0x1f9a844c; 0x77a5b19f; 0x72c920e2; 0xd173386; 0x5c6cbdf3; 0x5a80853c; 0x9c0bc8c; 0x7a83aff1; 0x15d35d9a; 0x563930b1]]%Z.
Lemma grain_POSEIDON2_BABYBEAR_16_PARAMS : p2_grain_b (N.to_nat 3529) (N.to_nat 454) rejected_POSEIDON2_BABYBEAR_16_PARAMS POSEIDON2_BABYBEAR_16_PARAMS = true.
Proof. vm_cast_no_check (eq_refl true). Qed.
Definition rejected_POSEIDON2_BABYBEAR_24_PARAMS : list (list Z) := [
  [0x211c1eac; 0x6ae5d7e; 0x5092f65b; 0x28080606; 0x7674412b; 0x7af1270; 0x4367417f; 0x50cb1c2a; 0xfc8ebad; 0x2816abbc; 0x3f16a59a; 0x4d633c22; 0x71dbd897; 0x6f2b378c; 0x936e659; 0xba9fd23; 0x49969750; 0x4bfd5a2c; 0x1f9b3a31; 0x613fe177; 0x2e17149d; 0x5431faa; 0x7bd6ee95; 0x706f03b];
  [0x5a810ed3; 0x345424dd; 0x3111b0ce; 0xb7753d3; 0x68dc180d; 0x3d51624f; 0x1f72ce83; 0x6f68c901; 0x39f01403; 0x3e496c94; 0xf8d6022; 0x3b90f26b; 0xac4ff19; 0x38b0519e; 0x1ec6af68; 0x463243e8; 0x354d173c; 0x789572f9; 0x13bcaaa5; 0x2840d845; 0x33d63611; 0x7a478c34; 0x7cce40f3; 0x675d9dd9];
  [0x6e11b2e0; 0x3d626b93; 0x6131077; 0x3e508d01; 0x5feea10f; 0xabf698c; 0xa4b3856; 0x124dede5; 0x6805de45; 0x73cfbf3c; 0x47f8d207; 0x478b009b; 0x7d1fe56c; 0x67be1c2e; 0x2bb6a2f5; 0x62fa3b51; 0x4119d1c4; 0x454386c4; 0x45ef075a; 0x590aa38f; 0xfdcef79; 0x581f7b1; 0x13d763c5; 0x61e601f];
  [0x33dd05e0; 0x23ffe142; 0x2b29ac8e; 0x47c382f6; 0x3e787c86; 0x3f20b08d; 0x4d935dfa; 0x3a3c23df; 0x4d9dad01; 0x4e5ddddc; 0x722bab01; 0x1a51d5ce; 0x27e556b7; 0x3fa18fe1; 0x6d0f2958; 0x3059f7d1; 0x230519d7; 0x3952f12a; 0x46619d26; 0x62a8ebf8; 0x644fb0ab; 0x22a0f3d6; 0x21fd764f; 0x32866049]]%Z.
Lemma grain_POSEIDON2_BABYBEAR_24_PARAMS : p2_grain_b (N.to_nat 2720) (N.to_nat 347) rejected_POSEIDON2_BABYBEAR_24_PARAMS POSEIDON2_BABYBEAR_24_PARAMS = true.
Proof. vm_cast_no_check (eq_refl true). Qed.
Definition rejected_POSEIDON2_BLS_2_PARAMS : list (list Z) := []%Z.
Lemma grain_POSEIDON2_BLS_2_PARAMS : p2_grain_b (N.to_nat 4772) (N.to_nat 75) rejected_POSEIDON2_BLS_2_PARAMS POSEIDON2_BLS_2_PARAMS = true.
Proof. vm_cast_no_check (eq_refl true). Qed.
Definition rejected_POSEIDON2_BLS_3_PARAMS : list (list Z) := []%Z.
Lemma grain_POSEIDON2_BLS_3_PARAMS : p2_grain_b (N.to_nat 6010) (N.to_nat 94) rejected_POSEIDON2_BLS_3_PARAMS POSEIDON2_BLS_3_PARAMS = true.
Proof. vm_cast_no_check (eq_refl true). Qed.
Definition rejected_POSEIDON2_BLS_4_PARAMS : list (list Z) := []%Z.
Lemma grain_POSEIDON2_BLS_4_PARAMS : p2_grain_b (N.to_nat 6602) (N.to_nat 104) rejected_POSEIDON2_BLS_4_PARAMS POSEIDON2_BLS_4_PARAMS = true.
Proof. vm_cast_no_check (eq_refl true). Qed.
Definition rejected_POSEIDON2_BLS_8_PARAMS : list (list Z) := [
  [0x413f4e125cec56e590ca2f507678377b5381a18a245d6a7a707289afe18519cf; 0x19f02aef751ef1a50f182576d7a3ddc88a4cfdd8120c45ecd9cb0871aca82b51; 0x279cc3dfbf8fe51b4981c343fbd35d0660273e2476114d44c3d90f4f3675c562; 0x6d592560b3ca3ef83d76a91fd6290af5e384e89875357d776c4462c57a84fa59; 0x16571531b5aeab05acbc0a4b2e464eb536e4a924bad115f1cf2be639b5b50d01; 0x26facda06a3f8db07198119519ebbe0138f15bed74748c85b0d25c7a0e12ed5; 0x579ae7a264b40460f98610a6a29dcd59e059bce06c7e5a2eb00dc8750620a35a; 0x5110cf9b9ba8ac6d07dc777cf848fd1b8b111ec6470a2764dc624eca813b9fe];
  [0x206e862ab391876f28ecc784d340fde555a6f19006d75b0c1b2a08a21b4489e7; 0x1981c8c01ea556e29ac3716ffa10b136917246be6dc3216fb014ec767d3c5a7c; 0x195b8edee37edc895c2c6f06b6f7a0a7e7752623350db10efc524c3518f1a42e; 0x39e6a6288cee695456bb13eb3c236f324a54a3038241024c3dffbd4df6ecc7b3; 0x5b89c7b09f9933aa8914d0b36537c962fd8b84d79975a7b105138d9c6b728ff6; 0x51c2cf811708e076e545cdd13ffaae65ca09fcbcb59d67247617b4970b4686e9; 0x71c2e3739ff56fbdcc3820e589e7064ed440201645f1b3f6b31b2529807e98d; 0x36d6bd128d3fec0e2175d912ae3627e916dbf64f806a430f6a0723dec3b1230c];
  [0x11b86c28e5f9499d39bad67d7cb292dd12040a77a7fc43e686bd2071bd624665; 0x5642a541da611607f51c27df1f5be6818dbad9c29561bf95ef75bf48c00efbdc; 0x257175ecb62b84fb6c5793330f07fe088e444c7ed2cca04d1e5171ca9305d487; 0x24d4b0023cb7baf25ce88e205eae791e9b3064431228e0bf5d5d8e3ad19f1abb; 0x111dc6b95ed19fa4d424dc86e0aa7f24b7216ef5d0559f462c3f5d17861da84; 0x41b02aaa205a8d16acf416038c56be9efe05e9c8831ca2e795a16ffb12971fd1; 0x48f1e3fa50f1933ebebd91ac4530fd7b4eaf6ef4cd0f4f1457dc6e79a6452c61; 0x494d75e1e591efdb9b02ceacb0a80b7e59f1133860ca4b5088f080bc343f90db];
  [0xc896ecb5cb1d7d3c0cbe825fd44d99cc08707f9a8eae57c047249f24d8b29af; 0x5775a0995b629bf2640d2b5a4c00d514947f8fce8a3eb6a7d4cfac8a8b8e2d9d; 0x22f2e8437ec3d5f5318d900fcdaea91561d959cfe0a385b5b7995f0bda581251; 0x6b16a97d96f98b9d3dfd2757ab1c4dbe84925900cbf403c298f6af05e17d7d3e; 0x4a5980817952035d223910983f8afe269384ada51682ed85f089049504587382; 0x2b3ab5ecfce88bee5ae7b7008aeeed489e4b4c5b447c7d47f41a21a5caa363b9; 0x5e6bfc665ba524003c9ff84b36484783b6c43d210d0bee651fe6983b077f0765; 0x21b2fc242ac3caafde58303e63c8106911e244867f12807501b633f98cc9c6af];
  [0x4aa2316d1c81a37db4f98db5b7572099cb9b710e8970fc199924b74fcbd933c9; 0x7ce3d4b84dc923d5d8e691fde4c1897e8fe83004a7907cbf096a7dc4519a7ba7; 0x4b677413e4e2c0c3d160b06f845f8711c735d46cbac3c4bd075711be07a84989; 0x4c24223346da1b3e00240973c4704f2c4cdb201076e8ea1c0b17b071ae00e70b; 0x197b57cd258c1f789fadf4b932a35ae72bdb648e78596b33fda58689ddc304df; 0x5316e693345d550b740f3a21d9e9a825fe6e9e43517b713f121d5784b38186a3; 0x707fa7a157613de19d97f5aa0f0235fca3e6a6643bc66d0e902d2f88ca76375e; 0x36905ea3619d8bc9d6d14b3d092b40b8313b9dc961543234e174e4fc733beb21];
  [0x3762362e580647272a2ff2f34c1b342bba17035c83db1f4877e655087256beb8; 0x601bdd080c3201ed6392bd525422b8a3f3d49efd8b33591952afc454fa40a03b; 0x365e4df091a26a4c15e9bf45273806d69a77d9c573347cf6566b85cd40645d; 0x5edf0d12d18c9d63b0a434d0ec7d7a2d113c5d9b79bb49bdf92a004cd7179ce8; 0x2e154f995c659f1d92b597698a852e79a23a2fb63f4be266fe793965c0b2f69; 0x51261bdbb577451472c149a856b7d7caaccea757a0c749d369e35819717a39c4; 0x109ca4a0b082abd9bb6bf0ba6de106bd0bc6cdf2a1386970d32cb78fd43620a4; 0x4345e43114ec8d85ff9461e1ae066ee1ec1b8f1f4be3866dfc775c5f19850c51];
  [0x3d787fcefd7f8ec65e3a65d9ca4a0dacd2131bccee0e0c18b2dc40c8962682c8; 0x7d698c05d5a4d21f4b369d99ea653980f035fbe17201ac24ffd088310a75de39; 0x7019e7c3d1701938a1e195af51d0ad8f0f8a84ba7b3746c7a92fd3377fad6d49; 0x6931527329b43a3e4be82bd07daba88aa8369ef5ac71b0e2022c655f5bad3ca; 0x8df4f662f1be17f0706c905bf5085f755a5ffb124ea51c2720ce18023b031fb; 0x502f04bc7134c7a515f2cbfb6d669bcb372ce733976f17c728fd895a32458502; 0x6158677eb716c39850bdc4b6464d3f110a41c34d1812acb47185a46ab9c1ece2; 0x6d48f8f4dbcda230cdca403d62a82227cf85200c4e43e60156b0f250512afe57];
  [0x415e374d731d3909c657cc6e6c93e10f268935f28a049eae40e713d344dfe083; 0x2bb740a58a0b5537bcab5cdae457497468e853aaa97814d1a93bb44747c47202; 0xb5728139af4e65d86459b91d4ff291852e2fc6cca1b090cdd2ba3c97608332f; 0x42e07364e2f6c4508cd5cae0eed42555bbb8166b8f981769abee0c0bac78d813; 0x43f61b1c2227201771fe844844f6acee386d91c041f96eb7f22ce6c9f28efe3c; 0x7be11b26749bbe3129f95ff09ff93b0b05e0a775f09f555b5981ba3e824e4b4e; 0x7afa3cc40df78a28ead3062c0b80197f2ffc3106213ac03abceb8c362e8ffe0f; 0x59f66229f6c349a7b876515c83c3b26f091f33cc237aac31416482faacaf5e65]]%Z.
Lemma grain_POSEIDON2_BLS_8_PARAMS : p2_grain_b (N.to_nat 13076) (N.to_nat 205) rejected_POSEIDON2_BLS_8_PARAMS POSEIDON2_BLS_8_PARAMS = true.
Proof. vm_cast_no_check (eq_refl true). Qed.
Definition rejected_POSEIDON2_BN256_PARAMS : list (list Z) := []%Z.
Lemma grain_POSEIDON2_BN256_PARAMS : p2_grain_b (N.to_nat 6325) (N.to_nat 100) rejected_POSEIDON2_BN256_PARAMS POSEIDON2_BN256_PARAMS = true.
Proof. vm_cast_no_check (eq_refl true). Qed.
Definition rejected_POSEIDON2_PALLAS_3_PARAMS : list (list Z) := []%Z.
Lemma grain_POSEIDON2_PALLAS_3_PARAMS : p2_grain_b (N.to_nat 11311) (N.to_nat 177) rejected_POSEIDON2_PALLAS_3_PARAMS POSEIDON2_PALLAS_3_PARAMS = true.
Proof. vm_cast_no_check (eq_refl true). Qed.
Definition rejected_POSEIDON2_PALLAS_4_PARAMS : list (list Z) := []%Z.
Lemma grain_POSEIDON2_PALLAS_4_PARAMS : p2_grain_b (N.to_nat 10774) (N.to_nat 170) rejected_POSEIDON2_PALLAS_4_PARAMS POSEIDON2_PALLAS_4_PARAMS = true.
Proof. vm_cast_no_check (eq_refl true). Qed.
Definition rejected_POSEIDON2_PALLAS_8_PARAMS : list (list Z) := [
  [0x54966d09dc77c77fa838055cd945d6f5140c2571be9e3c290b066ad74bfac0b8; 0x2d0415c19a13af2f322aacaf01c5f200343c4175d1eec63bdaec4a7dba472bfb; 0x3e432eb827b909c61b64dfe1ce87e46320d47b6b3409516c0e78b06992b715af; 0x229219ee1dca7d21693cd90caa8772b639f7b339be1cc45a58c693152d4c80a1; 0x23dfa575062b3dbb73b0f30b4a0d7ad4135c507f9dad865442d31765ce42095e; 0x60218a14ae1c3c9939f2283d2d2a5578b5bc6f85aaf52fef4ed66d593161ef4f; 0x331a4836aedbeda43bd4a4e4d2132366fadd5f3db7222dbdde6096d913db1840; 0x2be7a7c77e07efe6373a4ea50fa9182684df7e7955959f75377d36f1e8c1529b];
  [0x2b209fc9ff3c6199120303169c4e1e8af0547ca3120385aeed110645154df5aa; 0x1aa6772269c284f201e7521c09a3b150fd956676c43c38557f90550657367a1a; 0x5237176e4e9dc2f72c9ebbf295c4fa92892b34995ba625fe9934ab8f119b6977; 0x15db0a215dff8612dd58eb971f76e504edbfec242f88a19ee84a850b4779ed52; 0x60ca1c79254a80a2b8051f2edec9f7f34abdd29cfd1e1e6b41d4e4c9d49564cd; 0x4a5d6681d081ae949446ab297b4c06f26b8d13c16497ea342c15c75afc24f943; 0x4260162f7eff4c89d0d2e7a33c708006bb6b3fe5853c5d595f581de1e7e0862a; 0x11d97e2b5c4b4623c288a7843953bb3a897a0b80c7dcc6f46df478839914c821];
  [0x156efb5a9809ba0225fe505365aab93d06914c758f101cd430d83978465db925; 0x258337750d9e01f98cb63784cbb9d35c6ccb9114bb00dbc72b0e91d922ca9e76; 0x2e0aefff1feeb4ea62801b2ea15a697dc2bcd45c8b095e9d29a05b0e92c1bdb7; 0x70cc1a85a137c25c1fbd62b05e80bac91db7d81692528441a9ae9f8cb19da871; 0x2a7c4bdae154c0a884aeb57ab8f25e127de1d52705fa0e2df069b058c43252c; 0x5b9de5ccd4d27f0b6046f357db9c77d9fb86c3e36ee0573d645034b3134de3d9; 0x638cba5283f816b78f9289e2b86495b64b1ec2263b287045b6fe89075b436dd7; 0x1bf8bc219294f434537efefd8173981122483377c8d2da1309ba7f720c2fe5d8];
  [0x4d701984abb5abb3588b94cc90ea0d6c93b4030af82882468d04901b6ea18c2e; 0xc8f6edaed0be0194645076b0b721412e8786fcbbd2d8cad1a89b8d79d76d01; 0x27cb784675ed4c3c5fecb079303704cc60ccf8d5823e49e383cbd67bbd37982c; 0x2fbdaf6f0b01e969624d2eacd9ca08a847158d44fc12650887b9d032af0e40c4; 0x4b0021340c6a55d3b73a41db165b428ff95396c1d70e69f95517fdeed73db115; 0x41ae96bd9f78b5e236ae721353ce4b9a8097c9a7cef5d98f2e8d3af8d32ae7e3; 0x4e787c87a28bca639e461f128231151c4e739a928db407a95a5e5cbab0ccfaa3; 0x183ac5f9f64ee66895fe790ae3a87c9031f462abd4dcde6a6e5ead272c7e7461];
  [0x722ea3505d9ecfe26197af6096b3bc5f51d24388552bc46110aaa50769ede1db; 0x2df84973c242adadf01fc9394211685dc28fae300862881cc4ae288baed20ec8; 0x74815ee0c2f8ec16eca247d883fd061f64103c3986f9520bf573d67cfb347673; 0x1e63c8dc6b6aeb35f9518c6b5be7cb84fbd16df197fda132a9d7cce9577611c4; 0x74e3c4423e26dbe59a5536d4c4c7c931fcba4dd6e640561d4dd80154c0d44180; 0x54d1793691017e9068da2d75b87c7cbd25d75f743f827101ad218b90688ee924; 0xbfe133d34b46b119d938eb14805ba7bba1dc33d91f462023129590a69b576fb; 0x2ddaf0dca74ae960299f6a66235e1b10db5145711194220762448c5aee87c0];
  [0x7b986c46ecf72103693e43565c2cc5ea149c1a6fca6139ddafc2e21ded7e6ddf; 0x6d4312142298c227a54885c184108bee95261a75896f19fc873f5aef69639e9a; 0x6728fae79e0d4dd22438afcaef7d72cef73385128ae59680e130ef7cd11f43ae; 0x274fd475cf62835ce1e8e05cc9b3590e9eb82b2c37c64900d9cf7b62d7852311; 0x325027f7ef49c4a83c44eb6abd372634329a78994512213ed24e658bd45658ff; 0x6cebb57a7ef95edc88221b66b151b38ac1bc25fb63f3ff259dc871043571b1fd; 0x7ea98677f7988dca5e550d1bffc853df46f04aeff65d6e41dd76d461e9cb6291; 0x54380865983435ef70c97e33feae6d354195a2b7fae79d5f95a8e18a8110d604]]%Z.
Lemma grain_POSEIDON2_PALLAS_8_PARAMS : p2_grain_b (N.to_nat 19259) (N.to_nat 302) rejected_POSEIDON2_PALLAS_8_PARAMS POSEIDON2_PALLAS_8_PARAMS = true.
Proof. vm_cast_no_check (eq_refl true). Qed.
Definition rejected_POSEIDON2_VESTA_PARAMS : list (list Z) := []%Z.
Lemma grain_POSEIDON2_VESTA_PARAMS : p2_grain_b (N.to_nat 11311) (N.to_nat 177) rejected_POSEIDON2_VESTA_PARAMS POSEIDON2_VESTA_PARAMS = true.
Proof. vm_cast_no_check (eq_refl true). Qed.
