(* Data of /repo/src/traces: the traces that the tests of /repo convert and prove, as SMTTrace values, and the Poseidon hashes
   that occur in them.  Generated by tools/real_traces.py (Poseidon: tools/poseidon.py); models no code. *)
From Coq Require Import ZArith List.
From Verif Require Import Pocklington Fr Query Gadgets MptUpdate Bytes Util Serde.
Import ListNotations.
Open Scope Z_scope.

Definition h32 (x : Z) : list Z := be_bytes 32 x.
Definition h20 (x : Z) : list Z := be_bytes 20 x.
(* left, right, domain, hash *)
Definition hashes : list (Z * Z * Z * Z) :=
  [ (0x3f8133dd5ed58838b20af1296f62f44, 0xe69baa48000000000000000000000000, 512, 0x1bed6388bf079da247f7e78eee9acc3266e284a05194ceb9f179ad420d74c55c)
  ; (0x1bed6388bf079da247f7e78eee9acc3266e284a05194ceb9f179ad420d74c55c, 0x206f8e11be2eef7746de2f321b9458de9f48201bb0208d66d2a532c69c269a77, 4, 0x2fb606dfbc1293296b1c917af12dda2d38824bb06bc44bced3d70475842895a6)
  ; (0x10fde05c6e12171640a69dbbf368608a9e121290ba2e2be31c25f38f4049010, 0x25cee19619854bca7aa9ceceb5958ffff57ee38fb796f5a1128b7d268fcc1e5, 9, 0x1cca7ab0855c656b8f0b8116a45ae3f123fa9c1c753767c765b8649b950e3575)
  ; (0x21e62f6b41fe44998dcbaa80bcc8cde174dfe18d18f44ac94b4054b01a545903, 0x27c8bc2e82cf716ee84dda829585daf70eadaef82b2de8acb7b35d0aa2ad54d4, 9, 0x10fde05c6e12171640a69dbbf368608a9e121290ba2e2be31c25f38f4049010)
  ; (0xfcd6a74a51d3c2c76818b4b40938c18859c0546ac8d7d93e6a7baca4a5fb4f9, 0x2fb606dfbc1293296b1c917af12dda2d38824bb06bc44bced3d70475842895a6, 6, 0x21e62f6b41fe44998dcbaa80bcc8cde174dfe18d18f44ac94b4054b01a545903)
  ; (0x1bed6388bf079da247f7e78eee9acc3266e284a05194ceb9f179ad420d74c55c, 0x47aed9d7578c5aab849df83b399b7b24c585b9e1fb65178cd5f436d309036b2, 4, 0x11ba609d4886c36b3dafbb2bea6cf9408491630794b6907382515a3b664fbc27)
  ; (0x1db904ea434bebcee63dffa5d8f9e7e1e663196a3fcf3369f561bf2de53651d4, 0x25cee19619854bca7aa9ceceb5958ffff57ee38fb796f5a1128b7d268fcc1e5, 9, 0x2973450275607cf324db222297abe1f82bd913dc59c3c3f7bc4d8323cb90ccb0)
  ; (0x6be1d40ed382c50feaa3c0e00a1d4e5d8b8fe2454bad035bb6652082c03490, 0x27c8bc2e82cf716ee84dda829585daf70eadaef82b2de8acb7b35d0aa2ad54d4, 9, 0x1db904ea434bebcee63dffa5d8f9e7e1e663196a3fcf3369f561bf2de53651d4)
  ; (0xfcd6a74a51d3c2c76818b4b40938c18859c0546ac8d7d93e6a7baca4a5fb4f9, 0x11ba609d4886c36b3dafbb2bea6cf9408491630794b6907382515a3b664fbc27, 6, 0x6be1d40ed382c50feaa3c0e00a1d4e5d8b8fe2454bad035bb6652082c03490)
  ; (0x6c50541f08911ad149aa545dd3d606f86ee63c751a795c7d57f0d3f85e6bdeb, 0xadcb899b0996ad11f4a5b2f26e2a045303c73e063d7264b83f600dcb9b81c2e, 4, 0xa9837791a40c9befa2ebdbbe99fdb8d8d7a7bb9fe3a4c14f1581a76809bf2b2)
  ; (0x27d0c93bf27066dfe6216f184e40b44d3979f52539d9858f69fd627bf3b5a4d1, 0xa9837791a40c9befa2ebdbbe99fdb8d8d7a7bb9fe3a4c14f1581a76809bf2b2, 6, 0xa619f070af7332f4b0129b7b63a18e3d227b3ecbb7bef277bc41b949ecad1a6)
  ; (0x1aed9d52b6e3489c0ea97983a6dc4fbad57507090547dc83b8830c2ddb885777, 0x333f5bc9f054e09273a9737d97b552094c5ef5e7ad07263cccf061045f7d93, 4, 0x1323d7866288f9d670672215af41d0d610303b7e5f6ba97b5e54080960974580)
  ; (0x27d0c93bf27066dfe6216f184e40b44d3979f52539d9858f69fd627bf3b5a4d1, 0x1ebd1fa8391b5fa5b805444d74896d14cfac9519260e94ab9ef25ee4461f737, 7, 0x213bdef0806de3c47b392593c0e420fb424f4abee82edbd3480d22288d1a5794)
  ; (0x0, 0x104736bbf00e9ab6f74b9e366c28b4f21c4a273cbd1f7e3dff3d68d4dbfe6d76, 7, 0x1ebd1fa8391b5fa5b805444d74896d14cfac9519260e94ab9ef25ee4461f737)
  ; (0xa9837791a40c9befa2ebdbbe99fdb8d8d7a7bb9fe3a4c14f1581a76809bf2b2, 0x1323d7866288f9d670672215af41d0d610303b7e5f6ba97b5e54080960974580, 6, 0x104736bbf00e9ab6f74b9e366c28b4f21c4a273cbd1f7e3dff3d68d4dbfe6d76)
  ; (0x16fc66d15010e6213d2a009f57ed8e84, 0x7717ea0b83eeb37cd322e9ad1b018a3e, 512, 0x29d91acb323c1b4e61e4173e09bec683fca04f486bbd1c73103d7f60b3f1c356)
  ; (0xa619f070af7332f4b0129b7b63a18e3d227b3ecbb7bef277bc41b949ecad1a6, 0x29d91acb323c1b4e61e4173e09bec683fca04f486bbd1c73103d7f60b3f1c356, 1280, 0x1b448537750dd16d0026cc349c9d8413be7ed0522381351a8f45161051717f0f)
  ; (0x119b0000000000000001, 0x0, 1280, 0x16e8c202dea2289e4ab5097fdcec6f8813ed882f91125aef7c2e46ab3d2f4669)
  ; (0x16e8c202dea2289e4ab5097fdcec6f8813ed882f91125aef7c2e46ab3d2f4669, 0x1b448537750dd16d0026cc349c9d8413be7ed0522381351a8f45161051717f0f, 1280, 0x32646555669c3f7d909fc698dcda8266280be98e01cf06db4cc358d6a4fd9e9)
  ; (0x32646555669c3f7d909fc698dcda8266280be98e01cf06db4cc358d6a4fd9e9, 0xd85b09a93d5ed99a87d27dcf6d50e4459d16bb694e70f89eefcb745ea1c85e7, 1280, 0x206f8e11be2eef7746de2f321b9458de9f48201bb0208d66d2a532c69c269a77)
  ; (0x213bdef0806de3c47b392593c0e420fb424f4abee82edbd3480d22288d1a5794, 0x29d91acb323c1b4e61e4173e09bec683fca04f486bbd1c73103d7f60b3f1c356, 1280, 0x24c65a0eb3c51d0536c289da14ecfea9b2d6e47aa1668f09e616f22a4efaae5d)
  ; (0x16e8c202dea2289e4ab5097fdcec6f8813ed882f91125aef7c2e46ab3d2f4669, 0x24c65a0eb3c51d0536c289da14ecfea9b2d6e47aa1668f09e616f22a4efaae5d, 1280, 0x1bd7da59336bafc147a37413c9cc46c062b542e5045eaae5b104a75441df1856)
  ; (0x1bd7da59336bafc147a37413c9cc46c062b542e5045eaae5b104a75441df1856, 0xd85b09a93d5ed99a87d27dcf6d50e4459d16bb694e70f89eefcb745ea1c85e7, 1280, 0x47aed9d7578c5aab849df83b399b7b24c585b9e1fb65178cd5f436d309036b2)
  ; (0x0, 0x5, 512, 0x1aed9d52b6e3489c0ea97983a6dc4fbad57507090547dc83b8830c2ddb885777)
  ; (0x0, 0x0, 512, 0x1d3c5f8c36e5da873d45bfa1d2399a572ac77493ec089cbf88a37b9e94428422)
  ; (0x1aed9d52b6e3489c0ea97983a6dc4fbad57507090547dc83b8830c2ddb885777, 0x1d3c5f8c36e5da873d45bfa1d2399a572ac77493ec089cbf88a37b9e94428422, 4, 0x1f4066828bae68bc6006cbf884b410479f044c5a35d2dc9dc0bf943c0eacc681)
  ; (0x1c5a77d9fa7e, 0xf466951b2f01f724bca3a5820b630012, 512, 0x333f5bc9f054e09273a9737d97b552094c5ef5e7ad07263cccf061045f7d93)
  ; (0x1ffbf70c78a8aec04bc9be6b785508651402a94a1a613044b69b89be1312c812, 0x11ea14ac18434e4df77ee75d31f76f5d0b7762d8729d6894da45ff27ce3c18d5, 4, 0x2f96e518ffa759a1a4fa8c3f8f4093e8bc81a0a2bd04e1e79187ca238596f93)
  ; (0x1eab767ff16e0bc8cba9ebd9e5a323b0745c768c38c6f07d0df51214d5396da6, 0x150cd8ff5de3faa66e197f8aa52087cfb9c577691dad91f729656e919524134c, 9, 0x21e6d17a2205b5ec26375ae8267220f1bef5aa234577faaed6b109c102ffe9b3)
  ; (0x80a107e036af4dfdf4cdce2fe7326a4eaa8e5649919cf0839bedfb76eab9308, 0xadb8dfca83b33f391c0912c2e592be2452f239d2510ddf6782e383acd3e7003, 9, 0x1eab767ff16e0bc8cba9ebd9e5a323b0745c768c38c6f07d0df51214d5396da6)
  ; (0x2f96e518ffa759a1a4fa8c3f8f4093e8bc81a0a2bd04e1e79187ca238596f93, 0x14a9df08dbc1300ebba7303843b4acdddb4d05667555d30c14f863278020c8d9, 6, 0xadb8dfca83b33f391c0912c2e592be2452f239d2510ddf6782e383acd3e7003)
  ; (0x1d3c5f8c36e5da873d45bfa1d2399a572ac77493ec089cbf88a37b9e94428422, 0x117ef5d0d1050b4eb4bdce3a8810eda2c0b276bf7477ab8293d5e583eeb00dd4, 4, 0x4c547d477ee0d9bf4e84e2733f066da15be9f1b4e50c23076e5bfd78f2a65bd)
  ; (0x27a70168d4dc3384568fb02b6f7be744918565eeeb4c08e2d24af81660a3a429, 0x150cd8ff5de3faa66e197f8aa52087cfb9c577691dad91f729656e919524134c, 9, 0x440cd0e30aa7f44bec6c1fed5d71713695c77ed34ff20121562a5002ffa382d)
  ; (0x80a107e036af4dfdf4cdce2fe7326a4eaa8e5649919cf0839bedfb76eab9308, 0x196d6449fa7c81f0aaa611e6338d56d67d9620bebcb3b7aae3fbb9455cc734d7, 9, 0x27a70168d4dc3384568fb02b6f7be744918565eeeb4c08e2d24af81660a3a429)
  ; (0x25a2aea68b44f4c3cb2599528e0889306f8a1a8bf0d1cc95fec87e853231a6f5, 0x14a9df08dbc1300ebba7303843b4acdddb4d05667555d30c14f863278020c8d9, 8, 0x196d6449fa7c81f0aaa611e6338d56d67d9620bebcb3b7aae3fbb9455cc734d7)
  ; (0xcd99f413b66703660a5e292a8720e2a5e3b473896999cae0fe39006498cf58a, 0x0, 8, 0x25a2aea68b44f4c3cb2599528e0889306f8a1a8bf0d1cc95fec87e853231a6f5)
  ; (0x4c547d477ee0d9bf4e84e2733f066da15be9f1b4e50c23076e5bfd78f2a65bd, 0x2f96e518ffa759a1a4fa8c3f8f4093e8bc81a0a2bd04e1e79187ca238596f93, 6, 0xcd99f413b66703660a5e292a8720e2a5e3b473896999cae0fe39006498cf58a)
  ; (0x0, 0x1d3c5f8c36e5da873d45bfa1d2399a572ac77493ec089cbf88a37b9e94428422, 1280, 0x259c479bbdc03a825e630cd8b6bfb87fee3a2570bad25e871494f19727a366a5)
  ; (0x0, 0xc8, 1280, 0x17f959f5606b39e1ac9d5a757581949e0af9de756b0a0b85e7cccee0376dc147)
  ; (0x17f959f5606b39e1ac9d5a757581949e0af9de756b0a0b85e7cccee0376dc147, 0x259c479bbdc03a825e630cd8b6bfb87fee3a2570bad25e871494f19727a366a5, 1280, 0x1a062de5098bc0b7889955cbf31de6c8eea680dfd8e36bcc9c045da37a777144)
  ; (0x1a062de5098bc0b7889955cbf31de6c8eea680dfd8e36bcc9c045da37a777144, 0x0, 1280, 0x117ef5d0d1050b4eb4bdce3a8810eda2c0b276bf7477ab8293d5e583eeb00dd4)
  ; (0xb0b0b0b0b0b0b0b0b0b0b0b0b0b0b0b, 0xb0b0b0b000000000000000000000000, 512, 0xfa9dd6b7918ea55f6263df1c9b3e9f26b155cc597bae5d110d6c1d19de332f7)
  ; (0xc99b5e3a923c804f5e281d7bc18b4e26b39388d89ee699fda321fb390c62cff, 0x11ea14ac18434e4df77ee75d31f76f5d0b7762d8729d6894da45ff27ce3c18d5, 4, 0x1e7639a7103b7e106f4b0a6c536c61b949b880d1a3b2b8f44d76f66614b0b8eb)
  ; (0x2721329c24fb519d63e41cf450824aec6f82388c5ed5ae2f0822be325dd085f4, 0x1a7eaa27ed2548b1d590b699d0be0ad155f41db6a76b931859d6ae7acfc263ea, 9, 0x150cd8ff5de3faa66e197f8aa52087cfb9c577691dad91f729656e919524134c)
  ; (0x8cd0992a5ec0fd26617295e454994f3659bb9948af5014099c5a23ae4a2830f, 0x1e7639a7103b7e106f4b0a6c536c61b949b880d1a3b2b8f44d76f66614b0b8eb, 6, 0x1a7eaa27ed2548b1d590b699d0be0ad155f41db6a76b931859d6ae7acfc263ea)
  ; (0xfa9dd6b7918ea55f6263df1c9b3e9f26b155cc597bae5d110d6c1d19de332f7, 0x772f70a47746ef4e07c621136d2b87cbb37e10af97b0df0f7c5874ae22020f4, 4, 0x304b2b7291a7aa35ee3469cf2427dfc73b4e39596a9359906fb349f47724ea24)
  ; (0x1eab767ff16e0bc8cba9ebd9e5a323b0745c768c38c6f07d0df51214d5396da6, 0x3530b9c54e28854150f6142e666573633266fc583be92e1de55d6beda39695b, 9, 0x335b513e1f3e25112b5df433cf142592d44b42d7e0c7d0260c6d6b891cb5c99)
  ; (0x2721329c24fb519d63e41cf450824aec6f82388c5ed5ae2f0822be325dd085f4, 0x1eb2d367c058a4bb14c15663269eb62a9533becd0c524eb8f25a5cfcb067f100, 9, 0x3530b9c54e28854150f6142e666573633266fc583be92e1de55d6beda39695b)
  ; (0x8cd0992a5ec0fd26617295e454994f3659bb9948af5014099c5a23ae4a2830f, 0x1da009e08f14815e01d9ac1683beb8f827b5c085c26958b6ca48fe4894bb850, 7, 0x1eb2d367c058a4bb14c15663269eb62a9533becd0c524eb8f25a5cfcb067f100)
  ; (0x304b2b7291a7aa35ee3469cf2427dfc73b4e39596a9359906fb349f47724ea24, 0x1e7639a7103b7e106f4b0a6c536c61b949b880d1a3b2b8f44d76f66614b0b8eb, 6, 0x1da009e08f14815e01d9ac1683beb8f827b5c085c26958b6ca48fe4894bb850)
  ; (0xc8, 0x0, 1280, 0x2c6684ad71a20f414fa04092b68fb1b70dad7dc9d717efd26d5d2b043bf6ecc0)
  ; (0x2c6684ad71a20f414fa04092b68fb1b70dad7dc9d717efd26d5d2b043bf6ecc0, 0x259c479bbdc03a825e630cd8b6bfb87fee3a2570bad25e871494f19727a366a5, 1280, 0x2ed90cedd95c2f1fbe75eaba1c930bac7064f31613f911c03c221f18494cddcd)
  ; (0x2ed90cedd95c2f1fbe75eaba1c930bac7064f31613f911c03c221f18494cddcd, 0x0, 1280, 0x772f70a47746ef4e07c621136d2b87cbb37e10af97b0df0f7c5874ae22020f4)
  ; (0x14141414141414141414141414141414, 0x14141414000000000000000000000000, 512, 0x240316ba00f287232b02b03cd4db37c50010ac6527af8a375c78cf0828ff2805)
  ; (0x1288332ccfee0be38611483ab8b99f479083d6ad9ad117b991c1aa6393b7a9a6, 0x0, 8, 0x2721329c24fb519d63e41cf450824aec6f82388c5ed5ae2f0822be325dd085f4)
  ; (0x240316ba00f287232b02b03cd4db37c50010ac6527af8a375c78cf0828ff2805, 0x10a6163ffe6bdc8e6481902429f019ab43cbf1a754c2fe81385c66d4a5e04d0d, 4, 0x1c270b4388bc44797c8c1df22743beff9a144097929d4cee43ec2bba51d6808e)
  ; (0x1eab767ff16e0bc8cba9ebd9e5a323b0745c768c38c6f07d0df51214d5396da6, 0x2ac9e6fe942842cf68802e88adcbd48b3993d16d95628fc460b59beaca0ba895, 9, 0x22b7e5fcb00b9664dddb2042c41182ffe46ef4a3a4261d0ebee832ccef14245a)
  ; (0x2dc2f0a0573327572e2a57684001360ba83ad2f31db4a7cf4d82832b3556f066, 0x1a7eaa27ed2548b1d590b699d0be0ad155f41db6a76b931859d6ae7acfc263ea, 9, 0x2ac9e6fe942842cf68802e88adcbd48b3993d16d95628fc460b59beaca0ba895)
  ; (0x1288332ccfee0be38611483ab8b99f479083d6ad9ad117b991c1aa6393b7a9a6, 0x1c270b4388bc44797c8c1df22743beff9a144097929d4cee43ec2bba51d6808e, 8, 0x2dc2f0a0573327572e2a57684001360ba83ad2f31db4a7cf4d82832b3556f066)
  ; (0x0, 0x1caac51a83, 1280, 0x62a96b8081e46626efc6439c6e4d0a1d2c5239b568558c67d7557df9c8570bb)
  ; (0x62a96b8081e46626efc6439c6e4d0a1d2c5239b568558c67d7557df9c8570bb, 0x259c479bbdc03a825e630cd8b6bfb87fee3a2570bad25e871494f19727a366a5, 1280, 0x129225ebc0b7e0cdfe95c2e16bb3beda738575183e87b139530a2df394da044b)
  ; (0x129225ebc0b7e0cdfe95c2e16bb3beda738575183e87b139530a2df394da044b, 0x0, 1280, 0x10a6163ffe6bdc8e6481902429f019ab43cbf1a754c2fe81385c66d4a5e04d0d)
  ; (0x240316ba00f287232b02b03cd4db37c50010ac6527af8a375c78cf0828ff2805, 0x1943423efcded2ec7d46603b5150ee5fc6598c1b754ef13bab547f79494ac465, 4, 0x1bfa38b4cfd1c50ab5119179586e98139de0846cb8847d3dea065450bb0fa817)
  ; (0x1eab767ff16e0bc8cba9ebd9e5a323b0745c768c38c6f07d0df51214d5396da6, 0x162df4eaf47093900a5adb92a8111d62a257c1c2e3b6cfb85b2e5bd78a984f18, 9, 0x238b67a3f5f35849cf5e334231b81dda7811dd8dc425c14e319320ad887af2d9)
  ; (0x12ec2169b7d469f03122e7208f3e169594a5e1120c0c0312614e11ea35d3eabc, 0x1a7eaa27ed2548b1d590b699d0be0ad155f41db6a76b931859d6ae7acfc263ea, 9, 0x162df4eaf47093900a5adb92a8111d62a257c1c2e3b6cfb85b2e5bd78a984f18)
  ; (0x1288332ccfee0be38611483ab8b99f479083d6ad9ad117b991c1aa6393b7a9a6, 0x1bfa38b4cfd1c50ab5119179586e98139de0846cb8847d3dea065450bb0fa817, 8, 0x12ec2169b7d469f03122e7208f3e169594a5e1120c0c0312614e11ea35d3eabc)
  ; (0x1caac51a83, 0x0, 1280, 0x2cc9aef822e9cfbcc5b85a94efc2a1c26e2838bce5568a1475cb4959291a7fc4)
  ; (0x2cc9aef822e9cfbcc5b85a94efc2a1c26e2838bce5568a1475cb4959291a7fc4, 0x259c479bbdc03a825e630cd8b6bfb87fee3a2570bad25e871494f19727a366a5, 1280, 0x3f65f0de2240ce8c19dbd6fb6aa824b57a77feab129dcfb79bcf2f9f99e1181)
  ; (0x3f65f0de2240ce8c19dbd6fb6aa824b57a77feab129dcfb79bcf2f9f99e1181, 0x0, 1280, 0x1943423efcded2ec7d46603b5150ee5fc6598c1b754ef13bab547f79494ac465)
  ; (0x1010101010101010101010101010101, 0x1010101000000000000000000000000, 512, 0x1d3480103b76c4b92f9614e12069b2eff1acfc6c79d1518e49cf42ec91fc6823)
  ; (0x1d3480103b76c4b92f9614e12069b2eff1acfc6c79d1518e49cf42ec91fc6823, 0x2c2a47a987ba64133dc8e49ace31afefb4e30f4614541dfc7fb635114b3772d4, 4, 0x1c22ff2c2b0db975915f59a24430a541574fc737ec9ef749934ac1a11ae8814)
  ; (0x1eab767ff16e0bc8cba9ebd9e5a323b0745c768c38c6f07d0df51214d5396da6, 0x248b4965db5b37c5a6c643195a21dd839ecb5d77f6c1dbc621c89b65fc04baa8, 9, 0x16661d4880d91aad4e7b8df48ce1045ca21f7a0daa02c675a9706cc09b0196b6)
  ; (0x2721329c24fb519d63e41cf450824aec6f82388c5ed5ae2f0822be325dd085f4, 0xd22a318cefcac01e346ee161e12e4303907e5b4f9b42bed0ccf8893a8309133, 9, 0x248b4965db5b37c5a6c643195a21dd839ecb5d77f6c1dbc621c89b65fc04baa8)
  ; (0x1c22ff2c2b0db975915f59a24430a541574fc737ec9ef749934ac1a11ae8814, 0x1e7639a7103b7e106f4b0a6c536c61b949b880d1a3b2b8f44d76f66614b0b8eb, 6, 0xd22a318cefcac01e346ee161e12e4303907e5b4f9b42bed0ccf8893a8309133)
  ; (0x1d3480103b76c4b92f9614e12069b2eff1acfc6c79d1518e49cf42ec91fc6823, 0xb971caf22f168d9793aa0d5212ba71da958865c2ff8841370c3f70ec7104f4, 4, 0x5bf9e8caa81b2b94350d45aadabdc2f29a58792c0ee326229e93a68774b9697)
  ; (0x1eab767ff16e0bc8cba9ebd9e5a323b0745c768c38c6f07d0df51214d5396da6, 0x17536422975f48173751199bace9ce6f27ba5d7e25f532d1b39f91aff61d04fe, 9, 0x20b71b8b53eaf32f0c31264a34b799259d80d4fcf45ab2396a72b44313b8611e)
  ; (0x2721329c24fb519d63e41cf450824aec6f82388c5ed5ae2f0822be325dd085f4, 0xce6d65778e124b8487440bded83d3e889c27023dc31b79a3b7e607ec724dd15, 9, 0x17536422975f48173751199bace9ce6f27ba5d7e25f532d1b39f91aff61d04fe)
  ; (0x5bf9e8caa81b2b94350d45aadabdc2f29a58792c0ee326229e93a68774b9697, 0x1e7639a7103b7e106f4b0a6c536c61b949b880d1a3b2b8f44d76f66614b0b8eb, 6, 0xce6d65778e124b8487440bded83d3e889c27023dc31b79a3b7e607ec724dd15)
  ; (0x2fd4cdc62c00e81be48d25556569d8177eaaa152646bbf6733d9f6f5b524d534, 0x26049ba6de63003492eb078a01a8aa4f4a0e67f28f0955c2eba9101d5d2eea50, 4, 0x1e9ad00e4d51e7508af0455f79192709306abdaccdc14e78e6cd6d9ed2e454ff)
  ; (0x2988423030020ee1d4b4c2c011323f172b4372eda7a299a0f7362eaee3d6d5f4, 0x12701e2a16b7b4cabdc350b4f3e4c55f70246ac7709a7e57b23d64cdd9ba3e23, 9, 0xe2935574824e01f0acb171708fe2df0776d8c2c24d966751c7ead78ba47849f)
  ; (0x2789d09bfcb8acb845b2f207162aec8212a1a666afbcf7fee426409aa676125d, 0x20df96fa2dbcf3e5a5c45c09e9114ecec6d766e46bb5e29381279233b01f69f0, 9, 0x2988423030020ee1d4b4c2c011323f172b4372eda7a299a0f7362eaee3d6d5f4)
  ; (0x5f08598bb1a65c6a4f8ef591787661d34b161552452fb7e8ec46c4b214a283e, 0x280c58bc835632fa9c26dbb1690294fe3f676ea3c7a7f9a72c95029508f144d5, 9, 0x2789d09bfcb8acb845b2f207162aec8212a1a666afbcf7fee426409aa676125d)
  ; (0x1e9ad00e4d51e7508af0455f79192709306abdaccdc14e78e6cd6d9ed2e454ff, 0x28c6ad43b23284a30112873da3ee2a0838b498422dd7264d031412836d550af2, 7, 0x280c58bc835632fa9c26dbb1690294fe3f676ea3c7a7f9a72c95029508f144d5)
  ; (0xa599cb010e8edf51b8e28921c026cdfe0f42ad65f00573d740bb0d3bcd1bbd4, 0xf608a4bf67cc0aaca899dd7141c67bb80b20afc5b2636435af8347864542bf, 4, 0x7849a24f593d6a578bdeb7caede276762bb9ce04348711f914aeda0de3b0670)
  ; (0x3dc5cab1132f7ca16b223942c88fbbb84086d6642083fe244fabf87bdd08e58, 0x12701e2a16b7b4cabdc350b4f3e4c55f70246ac7709a7e57b23d64cdd9ba3e23, 9, 0x1a9b5916190a4f6b5f09bec8fe19082cd0b8f9af462236c7edd42bfef2173cb6)
  ; (0x1444b25394ba51767e6ad63b7d82c5ae63c661f3835410e5e39750292c0478bd, 0x20df96fa2dbcf3e5a5c45c09e9114ecec6d766e46bb5e29381279233b01f69f0, 9, 0x3dc5cab1132f7ca16b223942c88fbbb84086d6642083fe244fabf87bdd08e58)
  ; (0x5f08598bb1a65c6a4f8ef591787661d34b161552452fb7e8ec46c4b214a283e, 0x1a2efebeafb48909cca3ce8462d767dbf9187645f8818edd948bbb28c0c92c99, 9, 0x1444b25394ba51767e6ad63b7d82c5ae63c661f3835410e5e39750292c0478bd)
  ; (0x239f2087c4ea6f12de2f8dbbf08da4f6444ac7c9a6c7d52bf3f2f8d0016facbf, 0x28c6ad43b23284a30112873da3ee2a0838b498422dd7264d031412836d550af2, 9, 0x1a2efebeafb48909cca3ce8462d767dbf9187645f8818edd948bbb28c0c92c99)
  ; (0x0, 0x1f1fe8495df1a9358d9ca325154388de987290fde446684621de9ecb9d8ff6c6, 7, 0x239f2087c4ea6f12de2f8dbbf08da4f6444ac7c9a6c7d52bf3f2f8d0016facbf)
  ; (0x7849a24f593d6a578bdeb7caede276762bb9ce04348711f914aeda0de3b0670, 0x1e9ad00e4d51e7508af0455f79192709306abdaccdc14e78e6cd6d9ed2e454ff, 6, 0x1f1fe8495df1a9358d9ca325154388de987290fde446684621de9ecb9d8ff6c6)
  ; (0xe2935574824e01f0acb171708fe2df0776d8c2c24d966751c7ead78ba47849f, 0x1d3c5f8c36e5da873d45bfa1d2399a572ac77493ec089cbf88a37b9e94428422, 1280, 0x216e0b695d4afba8573b179fdddf260f76ee640e01aa2693541e3f2a81f57f0d)
  ; (0x0, 0x1, 1280, 0x4ae0d789c68d9c1d74eba488f5c0ea43aca2c7921b324f352be50e0cbf252c)
  ; (0x4ae0d789c68d9c1d74eba488f5c0ea43aca2c7921b324f352be50e0cbf252c, 0x216e0b695d4afba8573b179fdddf260f76ee640e01aa2693541e3f2a81f57f0d, 1280, 0x1e7f3e2848434430141dae2aa037af27f12c8d504b7a940074d3c58fa151151c)
  ; (0x1e7f3e2848434430141dae2aa037af27f12c8d504b7a940074d3c58fa151151c, 0x0, 1280, 0x2c2a47a987ba64133dc8e49ace31afefb4e30f4614541dfc7fb635114b3772d4)
  ; (0x1a9b5916190a4f6b5f09bec8fe19082cd0b8f9af462236c7edd42bfef2173cb6, 0x1d3c5f8c36e5da873d45bfa1d2399a572ac77493ec089cbf88a37b9e94428422, 1280, 0x20a2d675162a4029cd0fcab913be19c520f5bb75a0946cbd4dbaa1e761ef3044)
  ; (0x4ae0d789c68d9c1d74eba488f5c0ea43aca2c7921b324f352be50e0cbf252c, 0x20a2d675162a4029cd0fcab913be19c520f5bb75a0946cbd4dbaa1e761ef3044, 1280, 0xbc3b895425a1da61a5080474822ad122f305d2bc98e0d7450b8c63f6fe38524)
  ; (0xbc3b895425a1da61a5080474822ad122f305d2bc98e0d7450b8c63f6fe38524, 0x0, 1280, 0xb971caf22f168d9793aa0d5212ba71da958865c2ff8841370c3f70ec7104f4)
  ; (0x0, 0x1653e61, 512, 0xa599cb010e8edf51b8e28921c026cdfe0f42ad65f00573d740bb0d3bcd1bbd4)
  ; (0xa599cb010e8edf51b8e28921c026cdfe0f42ad65f00573d740bb0d3bcd1bbd4, 0x1d3c5f8c36e5da873d45bfa1d2399a572ac77493ec089cbf88a37b9e94428422, 4, 0x2875b91918d934dcc46025585b2b85962089ca3f767ae07552d6abfd40458008)
  ; (0x0, 0x133, 512, 0xf608a4bf67cc0aaca899dd7141c67bb80b20afc5b2636435af8347864542bf)
  ; (0x1d3480103b76c4b92f9614e12069b2eff1acfc6c79d1518e49cf42ec91fc6823, 0x21cd3a572797aaca0baaf421fc8178d8384524b9fbe12ecd145d38d719156a00, 4, 0x119f3b0ba6ba645c6c21b417472349d54645c49c6f9961855f5a51b4972589aa)
  ; (0x1eab767ff16e0bc8cba9ebd9e5a323b0745c768c38c6f07d0df51214d5396da6, 0x211302a497f364ca262367b8df12da2c36cdd9dd319a3afd74f14c936c2d6454, 9, 0x8cb416e9ba318e48335250efccd6d752db0c27e85c20ef70e48ea8bdec8386c)
  ; (0x2721329c24fb519d63e41cf450824aec6f82388c5ed5ae2f0822be325dd085f4, 0x28585c1b19d2eb927410a9bcc4a68c5cfeddbbb7d39918f31f840b30ebb03604, 9, 0x211302a497f364ca262367b8df12da2c36cdd9dd319a3afd74f14c936c2d6454)
  ; (0x119f3b0ba6ba645c6c21b417472349d54645c49c6f9961855f5a51b4972589aa, 0x1e7639a7103b7e106f4b0a6c536c61b949b880d1a3b2b8f44d76f66614b0b8eb, 6, 0x28585c1b19d2eb927410a9bcc4a68c5cfeddbbb7d39918f31f840b30ebb03604)
  ; (0x176849c4a371b2c76270599e3e60c4a8cbd754f1f678c205b025f0fcb6c84490, 0x26049ba6de63003492eb078a01a8aa4f4a0e67f28f0955c2eba9101d5d2eea50, 4, 0x17752e43adc0814e0cfe797b37478b5db507dbbaed920ca52dfaee00d9bf680d)
  ; (0x336333c106af84acdb2d9aa1274843a5f33d957a58a992db36b45796b292b73, 0x0, 8, 0x5f08598bb1a65c6a4f8ef591787661d34b161552452fb7e8ec46c4b214a283e)
  ; (0x1569aedc322f2679499c2f9b62d5eb16ececd45c6797d8360b7e6a4e94140c39, 0x17752e43adc0814e0cfe797b37478b5db507dbbaed920ca52dfaee00d9bf680d, 8, 0x336333c106af84acdb2d9aa1274843a5f33d957a58a992db36b45796b292b73)
  ; (0x26049ba6de63003492eb078a01a8aa4f4a0e67f28f0955c2eba9101d5d2eea50, 0xf608a4bf67cc0aaca899dd7141c67bb80b20afc5b2636435af8347864542bf, 4, 0x5689a29e540668bc8070a1512313d6c05ea16ea6f0443d99ac9a66bc4150988)
  ; (0x6324a399f4e4c4fc595399a5a30cbe10c4e9b65ded91aba8fb7d297794b767, 0x12701e2a16b7b4cabdc350b4f3e4c55f70246ac7709a7e57b23d64cdd9ba3e23, 9, 0x2d6a2f7c017ae374bf6d9728ef4cf0f05a515f93c9f2aea54bf6eb93d27b4107)
  ; (0x1e8e235fddd859f39f3d29ea3aac81d6397fbb3588bf2f4dd98b356977dc8299, 0x20df96fa2dbcf3e5a5c45c09e9114ecec6d766e46bb5e29381279233b01f69f0, 9, 0x6324a399f4e4c4fc595399a5a30cbe10c4e9b65ded91aba8fb7d297794b767)
  ; (0x12ce0af25bd2b26feb254e3acef6df0d96456c3eb0a20503340db978c4de8bb5, 0x280c58bc835632fa9c26dbb1690294fe3f676ea3c7a7f9a72c95029508f144d5, 9, 0x1e8e235fddd859f39f3d29ea3aac81d6397fbb3588bf2f4dd98b356977dc8299)
  ; (0x30b4220a252d7df61460e2b8e5686026174705296be1b2a06f38db725c8d0b5, 0x0, 8, 0x12ce0af25bd2b26feb254e3acef6df0d96456c3eb0a20503340db978c4de8bb5)
  ; (0x1569aedc322f2679499c2f9b62d5eb16ececd45c6797d8360b7e6a4e94140c39, 0x2f51fe33d1e9670e03429dafbb9eab437ef6a262e4c2d32ce69c3b92eee775e1, 9, 0x30b4220a252d7df61460e2b8e5686026174705296be1b2a06f38db725c8d0b5)
  ; (0xeb508c15d3d614c81e3514c10a97e162880e5fff6fd890ddcb6cddf4bfe7eaf, 0x0, 8, 0x2f51fe33d1e9670e03429dafbb9eab437ef6a262e4c2d32ce69c3b92eee775e1)
  ; (0x17752e43adc0814e0cfe797b37478b5db507dbbaed920ca52dfaee00d9bf680d, 0x5689a29e540668bc8070a1512313d6c05ea16ea6f0443d99ac9a66bc4150988, 6, 0xeb508c15d3d614c81e3514c10a97e162880e5fff6fd890ddcb6cddf4bfe7eaf)
  ; (0x2d6a2f7c017ae374bf6d9728ef4cf0f05a515f93c9f2aea54bf6eb93d27b4107, 0x1d3c5f8c36e5da873d45bfa1d2399a572ac77493ec089cbf88a37b9e94428422, 1280, 0xd7fc473fdddd3c700bd106528348d3e47742e73b1e5b65e3f3b4d30748b1029)
  ; (0x4ae0d789c68d9c1d74eba488f5c0ea43aca2c7921b324f352be50e0cbf252c, 0xd7fc473fdddd3c700bd106528348d3e47742e73b1e5b65e3f3b4d30748b1029, 1280, 0x153f2554298b8a79b0a6226b0a70b9664ea0c08296c976fb03bb1aa2593ed8a1)
  ; (0x153f2554298b8a79b0a6226b0a70b9664ea0c08296c976fb03bb1aa2593ed8a1, 0x0, 1280, 0x21cd3a572797aaca0baaf421fc8178d8384524b9fbe12ecd145d38d719156a00)
  ; (0x0, 0x1, 512, 0x26049ba6de63003492eb078a01a8aa4f4a0e67f28f0955c2eba9101d5d2eea50)
  ; (0x26049ba6de63003492eb078a01a8aa4f4a0e67f28f0955c2eba9101d5d2eea50, 0x1d3c5f8c36e5da873d45bfa1d2399a572ac77493ec089cbf88a37b9e94428422, 4, 0x1bf5b2393608fd80b634cf8a9e3349c96ff85b2ccc01f0d617cd8b3d9cd5e803)
  ; (0x1d3480103b76c4b92f9614e12069b2eff1acfc6c79d1518e49cf42ec91fc6823, 0x11d602d5b0663aa0d0a14c392d3b65b5bb24e27555cea53f47347daea1bd0d2, 4, 0x213e83a9b0b0fa988983c5a56f7349b36f8db7f7a2a40240fffbd96998ac15dc)
  ; (0x1eab767ff16e0bc8cba9ebd9e5a323b0745c768c38c6f07d0df51214d5396da6, 0x1479df4ca4cb55037d75a5090a08991cfc3628e689572c87fc5745142acfc434, 9, 0x10b7ea9e6223ec501032c683bb4ffaa2bfa05c6c1b8ec8082e01f01ef37341ce)
  ; (0x2721329c24fb519d63e41cf450824aec6f82388c5ed5ae2f0822be325dd085f4, 0x1faff3e63b3dd04b0d012e2d1587da6fa60b2221d5ade89332a1731099871a40, 9, 0x1479df4ca4cb55037d75a5090a08991cfc3628e689572c87fc5745142acfc434)
  ; (0x213e83a9b0b0fa988983c5a56f7349b36f8db7f7a2a40240fffbd96998ac15dc, 0x1e7639a7103b7e106f4b0a6c536c61b949b880d1a3b2b8f44d76f66614b0b8eb, 6, 0x1faff3e63b3dd04b0d012e2d1587da6fa60b2221d5ade89332a1731099871a40)
  ; (0x12ff0cb222e0f4b782bfd4aad04bde0fbc3114992790254b24658f9119e70f63, 0x26049ba6de63003492eb078a01a8aa4f4a0e67f28f0955c2eba9101d5d2eea50, 4, 0x17591a12fa08113562970f3b2e32dea6b9a1eb9711c75a3cdec841e16d7da059)
  ; (0xdee15dd965bab86be4c77e77f832545aa2bd0109bbcbf0f5e6852bfa6a59495, 0x1bd85ecbe2a296ca8829b5e582911397548d570205d6c8c1b22d38a1d0520c72, 9, 0x12701e2a16b7b4cabdc350b4f3e4c55f70246ac7709a7e57b23d64cdd9ba3e23)
  ; (0x17591a12fa08113562970f3b2e32dea6b9a1eb9711c75a3cdec841e16d7da059, 0x190d46902d56cc12a76cbac77bd14cc91bf42abfe26e041988eef041ad413036, 6, 0x1bd85ecbe2a296ca8829b5e582911397548d570205d6c8c1b22d38a1d0520c72)
  ; (0x6c50541f08911ad149aa545dd3d606f86ee63c751a795c7d57f0d3f85e6bdeb, 0xf608a4bf67cc0aaca899dd7141c67bb80b20afc5b2636435af8347864542bf, 4, 0x1e06a914c2124c1740bee00cccf957c829b4574641145c6ba157069a98065734)
  ; (0x2988423030020ee1d4b4c2c011323f172b4372eda7a299a0f7362eaee3d6d5f4, 0x2d324d564ecc5ab1a72ece9ee9cf9690b94b26a54b2cb4e0b06b5dec17683ff4, 9, 0xf053bac0a00ba82337b854ea9109bf212a3922f8b1eb87f0814a978aa4ce418)
  ; (0xdee15dd965bab86be4c77e77f832545aa2bd0109bbcbf0f5e6852bfa6a59495, 0xde48ea407368f446f92cb867e0714007cf14a255833ec3efb81c5c4ea4157a7, 9, 0x2d324d564ecc5ab1a72ece9ee9cf9690b94b26a54b2cb4e0b06b5dec17683ff4)
  ; (0x2a9c60cdf7efd2b5929afd89c57d8e03a1a3f9ed9dc960e8b0a14b25636c2d1a, 0x190d46902d56cc12a76cbac77bd14cc91bf42abfe26e041988eef041ad413036, 8, 0xde48ea407368f446f92cb867e0714007cf14a255833ec3efb81c5c4ea4157a7)
  ; (0x17591a12fa08113562970f3b2e32dea6b9a1eb9711c75a3cdec841e16d7da059, 0x1e06a914c2124c1740bee00cccf957c829b4574641145c6ba157069a98065734, 6, 0x2a9c60cdf7efd2b5929afd89c57d8e03a1a3f9ed9dc960e8b0a14b25636c2d1a)
  ; (0xf053bac0a00ba82337b854ea9109bf212a3922f8b1eb87f0814a978aa4ce418, 0x1d3c5f8c36e5da873d45bfa1d2399a572ac77493ec089cbf88a37b9e94428422, 1280, 0x2e2d360ae6a79976984e1504b1140078bc62cd71d37ea1acb1a048f550ab4285)
  ; (0x4ae0d789c68d9c1d74eba488f5c0ea43aca2c7921b324f352be50e0cbf252c, 0x2e2d360ae6a79976984e1504b1140078bc62cd71d37ea1acb1a048f550ab4285, 1280, 0x2add69c09e9b6302b96953917fc6c88200dcc22373efc527e83e1cce7b5d4d71)
  ; (0x2add69c09e9b6302b96953917fc6c88200dcc22373efc527e83e1cce7b5d4d71, 0x0, 1280, 0x11d602d5b0663aa0d0a14c392d3b65b5bb24e27555cea53f47347daea1bd0d2)
  ; (0x0, 0x3, 512, 0x6c50541f08911ad149aa545dd3d606f86ee63c751a795c7d57f0d3f85e6bdeb)
  ; (0x6c50541f08911ad149aa545dd3d606f86ee63c751a795c7d57f0d3f85e6bdeb, 0x1d3c5f8c36e5da873d45bfa1d2399a572ac77493ec089cbf88a37b9e94428422, 4, 0x4c7033d866528fe7537fc9ef1e72abd913f59f8b171f9c0d9978ec72595b73)
  ; (0x1d3480103b76c4b92f9614e12069b2eff1acfc6c79d1518e49cf42ec91fc6823, 0x14688db2ca299d889852d16152add421c2ee863d1eb2495e3713f47b8b138cc6, 4, 0x29b18d23ee912ed5eaa638b5ae67b06dcf852a5bed90afba6c32644503247bd8)
  ; (0x1eab767ff16e0bc8cba9ebd9e5a323b0745c768c38c6f07d0df51214d5396da6, 0x82ba47923fc331b9ded78c1ee8dc677117cc3325826c790d63310b02fe50a57, 9, 0x24a2453f4f244fc0687a35f118eec059f996ab0aa87e2ae42c71b010fcc13036)
  ; (0x2721329c24fb519d63e41cf450824aec6f82388c5ed5ae2f0822be325dd085f4, 0x10d3f681bf72d9c4d7ff9d42dc6d2f5f777fde846c9d246c4ea7c4ebc16c6f0c, 9, 0x82ba47923fc331b9ded78c1ee8dc677117cc3325826c790d63310b02fe50a57)
  ; (0x29b18d23ee912ed5eaa638b5ae67b06dcf852a5bed90afba6c32644503247bd8, 0x1e7639a7103b7e106f4b0a6c536c61b949b880d1a3b2b8f44d76f66614b0b8eb, 6, 0x10d3f681bf72d9c4d7ff9d42dc6d2f5f777fde846c9d246c4ea7c4ebc16c6f0c)
  ; (0x25d5e2db5ab1073d7beaf28cdd48dac5d7813509e8d2ac3b5cd6169e3df8ddf5, 0x1e678a91c1c15e965d1fb172575a558092048493146a45f28d4225a0bbe5911, 9, 0xdee15dd965bab86be4c77e77f832545aa2bd0109bbcbf0f5e6852bfa6a59495)
  ; (0x0, 0x2a2ad5cebf52a2563d40c07781aa39a5b3575c6b0e84ff3abd10d97dddb908b7, 7, 0x25d5e2db5ab1073d7beaf28cdd48dac5d7813509e8d2ac3b5cd6169e3df8ddf5)
  ; (0x1c7657f7b16a08dc62f8f904af31fabc91cd19ae7eba1ea5a3337de4dd3156d1, 0xf608a4bf67cc0aaca899dd7141c67bb80b20afc5b2636435af8347864542bf, 4, 0x352d748a29a588a6cd5fcd5afc0e13fa8440bb7a10c82d207b8bc0ec4e5eef8)
  ; (0x2988423030020ee1d4b4c2c011323f172b4372eda7a299a0f7362eaee3d6d5f4, 0x1a086a6396ac189da8509ba669c2a3aefb4e9cb5455222e6ce3e7a132baa0731, 9, 0x283d946b585d5fd513480d69bb673acee885d4aaa4450aff2f758f82951cc539)
  ; (0x13f5d8833b2c4a04b45e11f92321f8c02b4109647cfa2c8d15dbfa4944296e4d, 0x1bd85ecbe2a296ca8829b5e582911397548d570205d6c8c1b22d38a1d0520c72, 9, 0x1a086a6396ac189da8509ba669c2a3aefb4e9cb5455222e6ce3e7a132baa0731)
  ; (0x105796c537bc814729a88edec238e1281701f0d194efda0a276fd22ce65e6af, 0x1e678a91c1c15e965d1fb172575a558092048493146a45f28d4225a0bbe5911, 9, 0x13f5d8833b2c4a04b45e11f92321f8c02b4109647cfa2c8d15dbfa4944296e4d)
  ; (0x352d748a29a588a6cd5fcd5afc0e13fa8440bb7a10c82d207b8bc0ec4e5eef8, 0x2a2ad5cebf52a2563d40c07781aa39a5b3575c6b0e84ff3abd10d97dddb908b7, 7, 0x105796c537bc814729a88edec238e1281701f0d194efda0a276fd22ce65e6af)
  ; (0x283d946b585d5fd513480d69bb673acee885d4aaa4450aff2f758f82951cc539, 0x1d3c5f8c36e5da873d45bfa1d2399a572ac77493ec089cbf88a37b9e94428422, 1280, 0xe65674405f27170c44cedf3c7a3a9e3ccf0b29ae9298125e33418f0c08f209b)
  ; (0x4ae0d789c68d9c1d74eba488f5c0ea43aca2c7921b324f352be50e0cbf252c, 0xe65674405f27170c44cedf3c7a3a9e3ccf0b29ae9298125e33418f0c08f209b, 1280, 0x78f264acebe961cbd3f70d2776c249376dc16f2a2707513bdfe41bea41e8892)
  ; (0x78f264acebe961cbd3f70d2776c249376dc16f2a2707513bdfe41bea41e8892, 0x0, 1280, 0x14688db2ca299d889852d16152add421c2ee863d1eb2495e3713f47b8b138cc6)
  ; (0x0, 0x1f6, 512, 0x1c7657f7b16a08dc62f8f904af31fabc91cd19ae7eba1ea5a3337de4dd3156d1)
  ; (0x1c7657f7b16a08dc62f8f904af31fabc91cd19ae7eba1ea5a3337de4dd3156d1, 0x1d3c5f8c36e5da873d45bfa1d2399a572ac77493ec089cbf88a37b9e94428422, 4, 0x149f0d927d7a16e4f4f340ceac229c68d14fec4483a7796c42d4b6fb39ff48cf)
  ; (0x1d3480103b76c4b92f9614e12069b2eff1acfc6c79d1518e49cf42ec91fc6823, 0x14616b7129a10eee2a3652c212a65dbe45cb6b015e0ebd8536db66c4014fb4b4, 4, 0x8f38e3ff949540be47319d7e85acf12875395fbc22cd9e2c7f4a3d783c4e065)
  ; (0x1eab767ff16e0bc8cba9ebd9e5a323b0745c768c38c6f07d0df51214d5396da6, 0xefba7046efa4853ac95a7643cebbef0dca991b4042e663784359b85f706b568, 9, 0x11685c4e47bfb3e257a9ba094bc079f7f91665e50df32fac483ccc3a4ed18e1c)
  ; (0x2721329c24fb519d63e41cf450824aec6f82388c5ed5ae2f0822be325dd085f4, 0x1b9cc64fab33af56483510cfe5ec993b315513dc1586292349e40ebac83ebd9b, 9, 0xefba7046efa4853ac95a7643cebbef0dca991b4042e663784359b85f706b568)
  ; (0x8f38e3ff949540be47319d7e85acf12875395fbc22cd9e2c7f4a3d783c4e065, 0x1e7639a7103b7e106f4b0a6c536c61b949b880d1a3b2b8f44d76f66614b0b8eb, 6, 0x1b9cc64fab33af56483510cfe5ec993b315513dc1586292349e40ebac83ebd9b)
  ; (0x21d093566cb1eba7dd9a487d3390d12adaabf26999632a8a9f2698256045e9a1, 0x0, 8, 0x1e678a91c1c15e965d1fb172575a558092048493146a45f28d4225a0bbe5911)
  ; (0x1336b5a681d7e1509a25481c75ceb5f78dd7b35465a05fa90c84a62c410456dd, 0xf608a4bf67cc0aaca899dd7141c67bb80b20afc5b2636435af8347864542bf, 4, 0x18c2c51202278936e3ebdd456fc9b2470affa21f515642af56a2164098dac26b)
  ; (0x2988423030020ee1d4b4c2c011323f172b4372eda7a299a0f7362eaee3d6d5f4, 0x18124e6d297911aa6bf228ec4118cfddb90c2af2cf5c9b6fdf8e8a5f5f0027e9, 9, 0xaf9a7e8c9b57818c405603b01cdde7d44bc02eb29c457efc77ac3b0969dd15b)
  ; (0xb27631a786671e2915f7bf44d4b50ddef49ffd1c8ecd94ccdf526f408fef405, 0x1bd85ecbe2a296ca8829b5e582911397548d570205d6c8c1b22d38a1d0520c72, 9, 0x18124e6d297911aa6bf228ec4118cfddb90c2af2cf5c9b6fdf8e8a5f5f0027e9)
  ; (0x25d5e2db5ab1073d7beaf28cdd48dac5d7813509e8d2ac3b5cd6169e3df8ddf5, 0x8fe0d7c68ed42d80bb72db0b924ee5917e07095dc0892f26b66501e8eedb1, 9, 0xb27631a786671e2915f7bf44d4b50ddef49ffd1c8ecd94ccdf526f408fef405)
  ; (0x21d093566cb1eba7dd9a487d3390d12adaabf26999632a8a9f2698256045e9a1, 0x18c2c51202278936e3ebdd456fc9b2470affa21f515642af56a2164098dac26b, 8, 0x8fe0d7c68ed42d80bb72db0b924ee5917e07095dc0892f26b66501e8eedb1)
  ; (0xaf9a7e8c9b57818c405603b01cdde7d44bc02eb29c457efc77ac3b0969dd15b, 0x1d3c5f8c36e5da873d45bfa1d2399a572ac77493ec089cbf88a37b9e94428422, 1280, 0x1976c4bbf960ddb88f202e1b19cf234a922d9b757da97b625be31f852597a293)
  ; (0x4ae0d789c68d9c1d74eba488f5c0ea43aca2c7921b324f352be50e0cbf252c, 0x1976c4bbf960ddb88f202e1b19cf234a922d9b757da97b625be31f852597a293, 1280, 0x18e7b4807b404ad6681b34463613b417134a7942b9517764a213abee3b51a719)
  ; (0x18e7b4807b404ad6681b34463613b417134a7942b9517764a213abee3b51a719, 0x0, 1280, 0x14616b7129a10eee2a3652c212a65dbe45cb6b015e0ebd8536db66c4014fb4b4)
  ; (0x0, 0x1f4, 512, 0x1336b5a681d7e1509a25481c75ceb5f78dd7b35465a05fa90c84a62c410456dd)
  ; (0x1336b5a681d7e1509a25481c75ceb5f78dd7b35465a05fa90c84a62c410456dd, 0x1d3c5f8c36e5da873d45bfa1d2399a572ac77493ec089cbf88a37b9e94428422, 4, 0x2fbb5968ce0a1658b541d9c616fffadf00febfce9c5583b75ce8598fbc850636)
  ; (0x2020202020202020202020202020202, 0x2020202000000000000000000000000, 512, 0xc99b5e3a923c804f5e281d7bc18b4e26b39388d89ee699fda321fb390c62cff)
  ; (0xc99b5e3a923c804f5e281d7bc18b4e26b39388d89ee699fda321fb390c62cff, 0x28c5cea9563ed05bf9cbebd878dbcd275534a54848a4ad2cbd0206a309f3aa7a, 4, 0x28467b87dc6e0920814c90fcf5685b779f9dd5932093d4bc5ba28209efe594c1)
  ; (0x1eab767ff16e0bc8cba9ebd9e5a323b0745c768c38c6f07d0df51214d5396da6, 0xc1b203c9c9b5f40a85afe1067dbfa19c7d2de11161162053e622ca7f529eb3d, 9, 0x2a9e842cabefb5675e72db833acfe98e9209f8ba71a5c8effa5d41fd839c24c5)
  ; (0x2721329c24fb519d63e41cf450824aec6f82388c5ed5ae2f0822be325dd085f4, 0x2f79bd5e6c21c176c66dfe79e26d0174f06420c34a058c75b517d6d59a6ca48d, 9, 0xc1b203c9c9b5f40a85afe1067dbfa19c7d2de11161162053e622ca7f529eb3d)
  ; (0x8cd0992a5ec0fd26617295e454994f3659bb9948af5014099c5a23ae4a2830f, 0x28467b87dc6e0920814c90fcf5685b779f9dd5932093d4bc5ba28209efe594c1, 6, 0x2f79bd5e6c21c176c66dfe79e26d0174f06420c34a058c75b517d6d59a6ca48d)
  ; (0x4ae0d789c68d9c1d74eba488f5c0ea43aca2c7921b324f352be50e0cbf252c, 0x259c479bbdc03a825e630cd8b6bfb87fee3a2570bad25e871494f19727a366a5, 1280, 0x1ff89442d060da72fa3074b2a19ce454f81db626f5b97c9cb0d18ef7c63c344c)
  ; (0x1ff89442d060da72fa3074b2a19ce454f81db626f5b97c9cb0d18ef7c63c344c, 0x0, 1280, 0x11ea14ac18434e4df77ee75d31f76f5d0b7762d8729d6894da45ff27ce3c18d5)
  ; (0x0, 0x12ca34, 1280, 0x1e507a6f75653315f307d86e3c75e10bd94a0a2d52a2f580a7f666ff4ccbd9ac)
  ; (0x1e507a6f75653315f307d86e3c75e10bd94a0a2d52a2f580a7f666ff4ccbd9ac, 0x259c479bbdc03a825e630cd8b6bfb87fee3a2570bad25e871494f19727a366a5, 1280, 0x2149df8e3568c37531e5bffda392fe65e4f780ee2c742bbf9a3d5ed0fffb5c45)
  ; (0x2149df8e3568c37531e5bffda392fe65e4f780ee2c742bbf9a3d5ed0fffb5c45, 0x0, 1280, 0x28c5cea9563ed05bf9cbebd878dbcd275534a54848a4ad2cbd0206a309f3aa7a)
  ; (0x4040404040404040404040404040404, 0x4040404000000000000000000000000, 512, 0x223c7708b8a9ecb512b5fe4cbebe06e7cb9f1cd19b33e11d0a1c3529351847bc)
  ; (0x223c7708b8a9ecb512b5fe4cbebe06e7cb9f1cd19b33e11d0a1c3529351847bc, 0x11ea14ac18434e4df77ee75d31f76f5d0b7762d8729d6894da45ff27ce3c18d5, 4, 0xaab4e67638a6ff8daba3e4436f51d46cfdacb0c231696c531df5b65ded2be0d)
  ; (0x3aca05421e3d606b01f12882716fe98cf3f716409294262da0588b733853ad9, 0xf6347c356ed5f6e767684f2fbadacc98ae672288a1aba8a7e128ad290ad0d39, 7, 0x80a107e036af4dfdf4cdce2fe7326a4eaa8e5649919cf0839bedfb76eab9308)
  ; (0x0, 0xd8307c30b551a3e02cce6f9e63d381cacf30c108e06071aa98be80b348765a0, 7, 0xf6347c356ed5f6e767684f2fbadacc98ae672288a1aba8a7e128ad290ad0d39)
  ; (0x10ac8960d494d16c0ae0b2fc33f668da2b76c1b7bd3ebf1935ce1d53b5763409, 0xaab4e67638a6ff8daba3e4436f51d46cfdacb0c231696c531df5b65ded2be0d, 6, 0xd8307c30b551a3e02cce6f9e63d381cacf30c108e06071aa98be80b348765a0)
  ; (0x223c7708b8a9ecb512b5fe4cbebe06e7cb9f1cd19b33e11d0a1c3529351847bc, 0x4d32833f25e499361d56129f8a53a0399a35b689ad7f2a26419a889c27b30ec, 4, 0x10bf392ee49ebbb006778b399f9c67dd94534b67684e5a6ababc34be615c4757)
  ; (0x2a446c336565eaefaba54d388441feb1875bf4f8c8bb24360979db9746d6d1b6, 0x150cd8ff5de3faa66e197f8aa52087cfb9c577691dad91f729656e919524134c, 9, 0x99335e32599c707eb8f85b5518d421f1e362cffce0c7a30d2aa1079080f9759)
  ; (0x2cc44273d01f732814a15ccfa17b39e21f93a9ba46a502f32c067b427acfaed3, 0xadb8dfca83b33f391c0912c2e592be2452f239d2510ddf6782e383acd3e7003, 9, 0x2a446c336565eaefaba54d388441feb1875bf4f8c8bb24360979db9746d6d1b6)
  ; (0x3aca05421e3d606b01f12882716fe98cf3f716409294262da0588b733853ad9, 0x28982769f8fb09f1b981a43a777db0d9e6881236e25e91e76f4240e9962d6928, 7, 0x2cc44273d01f732814a15ccfa17b39e21f93a9ba46a502f32c067b427acfaed3)
  ; (0x0, 0x22f063bff12b73de1c44ff6159f4b0e57791cbe2c66661c8dae8f7a6224ec052, 7, 0x28982769f8fb09f1b981a43a777db0d9e6881236e25e91e76f4240e9962d6928)
  ; (0x10ac8960d494d16c0ae0b2fc33f668da2b76c1b7bd3ebf1935ce1d53b5763409, 0x10bf392ee49ebbb006778b399f9c67dd94534b67684e5a6ababc34be615c4757, 6, 0x22f063bff12b73de1c44ff6159f4b0e57791cbe2c66661c8dae8f7a6224ec052)
  ; (0x23bce20000000000000000, 0x1, 1280, 0x1a1095d5e986db0d4475f8ac2a0578d5642d545e3e462cf8fba5a2d57213154d)
  ; (0x1a1095d5e986db0d4475f8ac2a0578d5642d545e3e462cf8fba5a2d57213154d, 0x259c479bbdc03a825e630cd8b6bfb87fee3a2570bad25e871494f19727a366a5, 1280, 0x25c9611c16c1253e4e97f5d338ac1ba856f1edf7dd7859a67efb55cb2d9fe92d)
  ; (0x25c9611c16c1253e4e97f5d338ac1ba856f1edf7dd7859a67efb55cb2d9fe92d, 0x0, 1280, 0x4d32833f25e499361d56129f8a53a0399a35b689ad7f2a26419a889c27b30ec)
  ; (0x8080808080808080808080808080808, 0x8080808000000000000000000000000, 512, 0x2b56fcc3b2f7da6e84e5f6ddb9e7c7cc27d33627afe0b34e0f83f0e451ddb12c)
  ; (0x2b56fcc3b2f7da6e84e5f6ddb9e7c7cc27d33627afe0b34e0f83f0e451ddb12c, 0x11ea14ac18434e4df77ee75d31f76f5d0b7762d8729d6894da45ff27ce3c18d5, 4, 0x10ac8960d494d16c0ae0b2fc33f668da2b76c1b7bd3ebf1935ce1d53b5763409)
  ; (0x2b56fcc3b2f7da6e84e5f6ddb9e7c7cc27d33627afe0b34e0f83f0e451ddb12c, 0x245594105766197fadfa0b5d57383953eeac8734309c2d150f0c44ad0813eb48, 4, 0x17950274f80cdd5e0d394e4a296d3bb4d399d0bb02c4ec9603459d651deb5ed6)
  ; (0x3f153bc71bf0f0649650388e0c7f1ef2db1115fb863eb6b30a79c236245b469, 0x150cd8ff5de3faa66e197f8aa52087cfb9c577691dad91f729656e919524134c, 9, 0x25ccaf06706545989d483beb547a3a44cce54365705639a13fb615bcfe1ee929)
  ; (0x17766d00473121c5935d3ade413a6d5ec6c71a15b98706f738e7cc7b4faf953a, 0xadb8dfca83b33f391c0912c2e592be2452f239d2510ddf6782e383acd3e7003, 9, 0x3f153bc71bf0f0649650388e0c7f1ef2db1115fb863eb6b30a79c236245b469)
  ; (0x3aca05421e3d606b01f12882716fe98cf3f716409294262da0588b733853ad9, 0x87a2d352c00f33a7874f90e7226881051ee21c22d1fb020694c291adccf3588, 7, 0x17766d00473121c5935d3ade413a6d5ec6c71a15b98706f738e7cc7b4faf953a)
  ; (0x0, 0x2a9f4803e792ac0149bf4c8ab1804726ef3813296f88a6d2c942f2400d3aba33, 7, 0x87a2d352c00f33a7874f90e7226881051ee21c22d1fb020694c291adccf3588)
  ; (0x17950274f80cdd5e0d394e4a296d3bb4d399d0bb02c4ec9603459d651deb5ed6, 0xaab4e67638a6ff8daba3e4436f51d46cfdacb0c231696c531df5b65ded2be0d, 6, 0x2a9f4803e792ac0149bf4c8ab1804726ef3813296f88a6d2c942f2400d3aba33)
  ; (0x22b00000000000001bc, 0xffffffffffffffff0000000000000457, 512, 0x2a7398a39526fa7dfdef8dddddd53fba0a1c23d7440f96174e073becc0194121)
  ; (0x0, 0x2a7398a39526fa7dfdef8dddddd53fba0a1c23d7440f96174e073becc0194121, 1280, 0x28513678dab985c1377afdbf0c3d55469133c3de2d3bb604b5bf1c70f7d371b8)
  ; (0x4ae0d789c68d9c1d74eba488f5c0ea43aca2c7921b324f352be50e0cbf252c, 0x28513678dab985c1377afdbf0c3d55469133c3de2d3bb604b5bf1c70f7d371b8, 1280, 0x28734cc2f9c654ae90c93bc2b1686d5efe8a6a3ca427b7a5b52c815d514c2fd4)
  ; (0x28734cc2f9c654ae90c93bc2b1686d5efe8a6a3ca427b7a5b52c815d514c2fd4, 0x0, 1280, 0x245594105766197fadfa0b5d57383953eeac8734309c2d150f0c44ad0813eb48)
  ; (0x223c7708b8a9ecb512b5fe4cbebe06e7cb9f1cd19b33e11d0a1c3529351847bc, 0x36778c570329713a1a5cd97694a8beb8bc16cdc0c5835ad48d6d411005cd302, 4, 0xf43cf1e7b19f7e2cba603f0e3097a6a1460e271ea943e44a13901abb4f1e2fe)
  ; (0x26edbfebf6804ab8ae5b30c40bc1a2f588d4e48792d75816bae2ee09d016435e, 0x150cd8ff5de3faa66e197f8aa52087cfb9c577691dad91f729656e919524134c, 9, 0xf8ef51f38355ecb8d6a94d482ec16884301caa8d86cdaf7df793f7327b953d8)
  ; (0xb3baca4e263197d62bfa37307f265e5e2dba1162f0e35eaa01d4b1762db9bb1, 0xadb8dfca83b33f391c0912c2e592be2452f239d2510ddf6782e383acd3e7003, 9, 0x26edbfebf6804ab8ae5b30c40bc1a2f588d4e48792d75816bae2ee09d016435e)
  ; (0x3aca05421e3d606b01f12882716fe98cf3f716409294262da0588b733853ad9, 0x2bd6a15e05f17330987ef860e6038bd4a8856ac7fc39896843ff73b97df52e41, 7, 0xb3baca4e263197d62bfa37307f265e5e2dba1162f0e35eaa01d4b1762db9bb1)
  ; (0x0, 0x591fd013111b5581cb2ec58f654e7f206bd522669d18190dd36f151031f44a7, 7, 0x2bd6a15e05f17330987ef860e6038bd4a8856ac7fc39896843ff73b97df52e41)
  ; (0x10ac8960d494d16c0ae0b2fc33f668da2b76c1b7bd3ebf1935ce1d53b5763409, 0xf43cf1e7b19f7e2cba603f0e3097a6a1460e271ea943e44a13901abb4f1e2fe, 6, 0x591fd013111b5581cb2ec58f654e7f206bd522669d18190dd36f151031f44a7)
  ; (0x1, 0x1, 1280, 0x2501040552685f3a69188e04ee34286405d46b5e63500c66cd2ff2f1daf59194)
  ; (0x2501040552685f3a69188e04ee34286405d46b5e63500c66cd2ff2f1daf59194, 0x259c479bbdc03a825e630cd8b6bfb87fee3a2570bad25e871494f19727a366a5, 1280, 0x1af306804d0dd141d83413829776f288e2b77f5844529832a71aace9beb473b3)
  ; (0x1af306804d0dd141d83413829776f288e2b77f5844529832a71aace9beb473b3, 0x0, 1280, 0x36778c570329713a1a5cd97694a8beb8bc16cdc0c5835ad48d6d411005cd302)
  ; (0x223c7708b8a9ecb512b5fe4cbebe06e7cb9f1cd19b33e11d0a1c3529351847bc, 0x1fe8acb678e093395898dbec37eda9790fd012ee08639f756b685f72bbcb495b, 4, 0x2b0be38a17054369f82f189fdaf6349b2bda12c4bd78e2e03d3c71b561dff3c7)
  ; (0xdb25d62284c5a022b7c52b70fa773d67265d4e525a141b90b91fa1542b5cca2, 0x150cd8ff5de3faa66e197f8aa52087cfb9c577691dad91f729656e919524134c, 9, 0x2da374f13fd2a7a27219469c6cc6d66cb098ae6d7fb1348c78c8bf159f663798)
  ; (0x130c834c22c1d9ea064e02c8b9d46469f3c2962d2cab614cd8983472157260b5, 0xadb8dfca83b33f391c0912c2e592be2452f239d2510ddf6782e383acd3e7003, 9, 0xdb25d62284c5a022b7c52b70fa773d67265d4e525a141b90b91fa1542b5cca2)
  ; (0x3aca05421e3d606b01f12882716fe98cf3f716409294262da0588b733853ad9, 0x35fc12daae0472116c9038cd80029fd3e52259ac5a5d580c6bf4b493a8d2d9, 7, 0x130c834c22c1d9ea064e02c8b9d46469f3c2962d2cab614cd8983472157260b5)
  ; (0x0, 0x1e5798b7d1f623169e9c78921ac61a4e0e380cb38c865e5548fe5bcd37a0262c, 7, 0x35fc12daae0472116c9038cd80029fd3e52259ac5a5d580c6bf4b493a8d2d9)
  ; (0x10ac8960d494d16c0ae0b2fc33f668da2b76c1b7bd3ebf1935ce1d53b5763409, 0x2b0be38a17054369f82f189fdaf6349b2bda12c4bd78e2e03d3c71b561dff3c7, 6, 0x1e5798b7d1f623169e9c78921ac61a4e0e380cb38c865e5548fe5bcd37a0262c)
  ; (0x1ff89442d060da72fa3074b2a19ce454f81db626f5b97c9cb0d18ef7c63c344c, 0x926ffffffffffffffffffffffffffffffffffffffffffffffff, 1280, 0x1fe8acb678e093395898dbec37eda9790fd012ee08639f756b685f72bbcb495b)
  ; (0x1d3480103b76c4b92f9614e12069b2eff1acfc6c79d1518e49cf42ec91fc6823, 0x1d08440f794fcf215d302e0ab14eebe104f630674694d71a14e9095ab5c75c95, 4, 0x1828aeaac434d81496eb5f83bc7012552556c406dc817285e09b1cfa270a8b4c)
  ; (0x1eab767ff16e0bc8cba9ebd9e5a323b0745c768c38c6f07d0df51214d5396da6, 0x18b5ae1b4b07d80202dccab52dfcd6765e398d2b49ac418a16c38378211340b, 9, 0x2eb8210a5e36d6d53899da73d0032c3be5ca21f30a9a0395ef34f9968a6f97da)
  ; (0x2721329c24fb519d63e41cf450824aec6f82388c5ed5ae2f0822be325dd085f4, 0x2927d9f0d9382089281a56d11f428062a23a33304594da7e9d39a91aa8447b54, 9, 0x18b5ae1b4b07d80202dccab52dfcd6765e398d2b49ac418a16c38378211340b)
  ; (0x1828aeaac434d81496eb5f83bc7012552556c406dc817285e09b1cfa270a8b4c, 0x1e7639a7103b7e106f4b0a6c536c61b949b880d1a3b2b8f44d76f66614b0b8eb, 6, 0x2927d9f0d9382089281a56d11f428062a23a33304594da7e9d39a91aa8447b54)
  ; (0x11b10544c3445cb09697be09c5154a83cdc0be8ed3bfa49ad890633f0ebf05f9, 0x26049ba6de63003492eb078a01a8aa4f4a0e67f28f0955c2eba9101d5d2eea50, 4, 0xbea9bd227caa0f5af1c551eefd191f204ae1fbf57dba274c8325143d895f692)
  ; (0x0, 0x1b998985bf6138f10526030c2c1efd5dfdea84eb72398858c49e2e79aaff52f6, 7, 0x2a2ad5cebf52a2563d40c07781aa39a5b3575c6b0e84ff3abd10d97dddb908b7)
  ; (0x0, 0x29696a5ee4822996a44ffd3aa12f684fe851e8c127a527190bcb3f8fb207bb0f, 7, 0x1b998985bf6138f10526030c2c1efd5dfdea84eb72398858c49e2e79aaff52f6)
  ; (0xeecae15b400c6eb150882a038a2d3c5e257e10a0f2032c1e06484239530c94b, 0xf5e29dd89fb19927e6ada500f02f1c625f5580afec6fe6f355e3d7486ef3371, 7, 0x29696a5ee4822996a44ffd3aa12f684fe851e8c127a527190bcb3f8fb207bb0f)
  ; (0x0, 0x21bcd8ff26959981f4a96504d12c22aa7257cd34da547a483102354d8e59cdaf, 7, 0xf5e29dd89fb19927e6ada500f02f1c625f5580afec6fe6f355e3d7486ef3371)
  ; (0x0, 0x1b3d57d55a16f00da4c1619fe1845eea413c45d2d8f0bf495dbbd6b4554da741, 7, 0x21bcd8ff26959981f4a96504d12c22aa7257cd34da547a483102354d8e59cdaf)
  ; (0x1ded415a1be5253ecd83305bc3d401f982334b9d10f4edd05fd6a84476e57135, 0x0, 8, 0x1b3d57d55a16f00da4c1619fe1845eea413c45d2d8f0bf495dbbd6b4554da741)
  ; (0x2ffc6155797e1dff5d22ec08fefad2bb5c6a84bf8993a62b54e08802c3a2c995, 0xbea9bd227caa0f5af1c551eefd191f204ae1fbf57dba274c8325143d895f692, 6, 0x1ded415a1be5253ecd83305bc3d401f982334b9d10f4edd05fd6a84476e57135)
  ; (0x11b10544c3445cb09697be09c5154a83cdc0be8ed3bfa49ad890633f0ebf05f9, 0x11d5e69cffa242e42ce3b03dac1273b15b227e7586785e1daa2856aae00b5d2c, 4, 0x56c81616c90176e279b27a1ee781e574162d07013251335cf6f18a650d99057)
  ; (0x2988423030020ee1d4b4c2c011323f172b4372eda7a299a0f7362eaee3d6d5f4, 0xc5d996b880eb2fbd774a63678f3ef79375221c646839ea773a350d4625df4ee, 9, 0x29756a0952b995a51ceb6d26c07b5590e02df69eb128b718737422b3a5ac848a)
  ; (0x2c00ce916344b4ba29cd2b4a0ed41d725e210db9000613f06809441f30db3183, 0x1bd85ecbe2a296ca8829b5e582911397548d570205d6c8c1b22d38a1d0520c72, 9, 0xc5d996b880eb2fbd774a63678f3ef79375221c646839ea773a350d4625df4ee)
  ; (0x13a1aa12ea4397ef83d2bec4a93633f14c4418ed2bbd0431c8fd42ea05fda317, 0x1e678a91c1c15e965d1fb172575a558092048493146a45f28d4225a0bbe5911, 9, 0x2c00ce916344b4ba29cd2b4a0ed41d725e210db9000613f06809441f30db3183)
  ; (0x0, 0xda306a74698b4c7eb287e77aa398febca22aa824c9a9082acc1938315b7ffa5, 7, 0x13a1aa12ea4397ef83d2bec4a93633f14c4418ed2bbd0431c8fd42ea05fda317)
  ; (0x0, 0x8fc1501fd549fbe92637fe09afa6ef637d457d5a92d71e940125899e59b1a2a, 7, 0xda306a74698b4c7eb287e77aa398febca22aa824c9a9082acc1938315b7ffa5)
  ; (0x0, 0x13a96f682caa8f9c9e9056a3c0a5c2aae770af043a2d7c40c3111e3dd2a3ab62, 7, 0x8fc1501fd549fbe92637fe09afa6ef637d457d5a92d71e940125899e59b1a2a)
  ; (0xeecae15b400c6eb150882a038a2d3c5e257e10a0f2032c1e06484239530c94b, 0xb1d7e1faf6b82d8d393918e3c8cc3a492e1014b5e547e283e094179e1ee295e, 7, 0x13a96f682caa8f9c9e9056a3c0a5c2aae770af043a2d7c40c3111e3dd2a3ab62)
  ; (0x0, 0x9d5f185bc34124244d9594540076f99e318c8cc2030601e7cfca952f8b74402, 7, 0xb1d7e1faf6b82d8d393918e3c8cc3a492e1014b5e547e283e094179e1ee295e)
  ; (0x0, 0x2a8069d31f4f8330c9499de562f47ec0db31b9ec2f67849d6eade2603d401a46, 7, 0x9d5f185bc34124244d9594540076f99e318c8cc2030601e7cfca952f8b74402)
  ; (0x3f42a5c08655b4157296ecbe8f049821957c776be79a2e114a41096763a956c, 0x0, 8, 0x2a8069d31f4f8330c9499de562f47ec0db31b9ec2f67849d6eade2603d401a46)
  ; (0x2ffc6155797e1dff5d22ec08fefad2bb5c6a84bf8993a62b54e08802c3a2c995, 0x56c81616c90176e279b27a1ee781e574162d07013251335cf6f18a650d99057, 6, 0x3f42a5c08655b4157296ecbe8f049821957c776be79a2e114a41096763a956c)
  ; (0x29756a0952b995a51ceb6d26c07b5590e02df69eb128b718737422b3a5ac848a, 0x1d3c5f8c36e5da873d45bfa1d2399a572ac77493ec089cbf88a37b9e94428422, 1280, 0x22df793b67d8101eacb940c417804bed884c23f2cba9f9d02e3f0d47512b61f9)
  ; (0x4ae0d789c68d9c1d74eba488f5c0ea43aca2c7921b324f352be50e0cbf252c, 0x22df793b67d8101eacb940c417804bed884c23f2cba9f9d02e3f0d47512b61f9, 1280, 0x892a5f3bc205a40b33253c1685fa256e77aae75bce6b68ec51d5a93f28dbcee)
  ; (0x892a5f3bc205a40b33253c1685fa256e77aae75bce6b68ec51d5a93f28dbcee, 0x0, 1280, 0x1d08440f794fcf215d302e0ab14eebe104f630674694d71a14e9095ab5c75c95)
  ; (0x0, 0x28, 512, 0x11b10544c3445cb09697be09c5154a83cdc0be8ed3bfa49ad890633f0ebf05f9)
  ; (0x0, 0x14, 512, 0x11d5e69cffa242e42ce3b03dac1273b15b227e7586785e1daa2856aae00b5d2c)
  ; (0x1d3480103b76c4b92f9614e12069b2eff1acfc6c79d1518e49cf42ec91fc6823, 0x341f7f93e4af3f0b3a426d197034fe3e00c56eb9675144d5426e2b5b8c4d0f4, 4, 0xb9b3454e29d51d8449ec22b619eb5b4d9a89977e378af7b8cf23e15269889fa)
  ; (0x1eab767ff16e0bc8cba9ebd9e5a323b0745c768c38c6f07d0df51214d5396da6, 0x161a641ff201a7d999e38fca13a470df194718f4f53f3469db54a305e653d2e9, 9, 0x17afaab401d8829122a33fa25629f62cff2526c315a4da015716336a0c34b983)
  ; (0x2721329c24fb519d63e41cf450824aec6f82388c5ed5ae2f0822be325dd085f4, 0x24ea420bcdf573f84d6d2af482b13548810490185c0628853f00b4a0dcefbd41, 9, 0x161a641ff201a7d999e38fca13a470df194718f4f53f3469db54a305e653d2e9)
  ; (0xb9b3454e29d51d8449ec22b619eb5b4d9a89977e378af7b8cf23e15269889fa, 0x1e7639a7103b7e106f4b0a6c536c61b949b880d1a3b2b8f44d76f66614b0b8eb, 6, 0x24ea420bcdf573f84d6d2af482b13548810490185c0628853f00b4a0dcefbd41)
  ; (0x1d3480103b76c4b92f9614e12069b2eff1acfc6c79d1518e49cf42ec91fc6823, 0x17a93e70c4a47e73697d0d4e3cc6f58dec047712f4595d71f71865e50fe8b1ec, 4, 0x2fd69dde058485ed40e6c9764d2afc790d4754902103d086b4f35cb883d23e5b)
  ; (0x1eab767ff16e0bc8cba9ebd9e5a323b0745c768c38c6f07d0df51214d5396da6, 0x1849d62d4a9bd9207db1534d0886b0e38f4566f092da25634570e6953cbd8398, 9, 0xddd8b953cc5770b218e7afac98a6962f7ca2fc464df5ae0afb861290928d95b)
  ; (0x2721329c24fb519d63e41cf450824aec6f82388c5ed5ae2f0822be325dd085f4, 0x1b78b00db7bb02e0c2fc1d0b1d150a7d1dc886a1d8fc957c8a2e42eeab9d6a4, 9, 0x1849d62d4a9bd9207db1534d0886b0e38f4566f092da25634570e6953cbd8398)
  ; (0x2fd69dde058485ed40e6c9764d2afc790d4754902103d086b4f35cb883d23e5b, 0x1e7639a7103b7e106f4b0a6c536c61b949b880d1a3b2b8f44d76f66614b0b8eb, 6, 0x1b78b00db7bb02e0c2fc1d0b1d150a7d1dc886a1d8fc957c8a2e42eeab9d6a4)
  ; (0x280197d16273288dafaee53e1e7da8cd07b1b050380e93bd01ac21f50bddb55, 0x2c3aff2eb42d311640176708109a2969c2ed133bb0f653e603d61fd598cd3479, 4, 0x7cbf27f545da87a7876100e8a03cbba8ec6f2ba190357a89c260b4aa87282f9)
  ; (0xa5a9b572837a82edf23b7b8b008139e5b8da36778b717fec2fa8a2ccc12d284, 0xeb2430e8fa4bf45bec1dfb81bca654c2a58200a3eab029933ff64a62f326485, 4, 0x2ad3d0c80435b9c8bf29e1e22f53907de4492cc4a4ed33dce41b1c868e034ae2)
  ; (0x2ad3d0c80435b9c8bf29e1e22f53907de4492cc4a4ed33dce41b1c868e034ae2, 0x7cbf27f545da87a7876100e8a03cbba8ec6f2ba190357a89c260b4aa87282f9, 6, 0x93c2353f5f3ff4c1d3b390e71fb4f40ccb4fea3ec7c36e6015531c470beae33)
  ; (0x7cbf27f545da87a7876100e8a03cbba8ec6f2ba190357a89c260b4aa87282f9, 0x1d3c5f8c36e5da873d45bfa1d2399a572ac77493ec089cbf88a37b9e94428422, 1280, 0x1e3a4cf6c81fe7c8ed0feb8de6e2b6dc01f9b4cec39988098c519123002cc28f)
  ; (0x4ae0d789c68d9c1d74eba488f5c0ea43aca2c7921b324f352be50e0cbf252c, 0x1e3a4cf6c81fe7c8ed0feb8de6e2b6dc01f9b4cec39988098c519123002cc28f, 1280, 0x19e9d173fbda1430fac259282ab40e0f0f18d38a2d4cc727bc897a52b9f76a6a)
  ; (0x19e9d173fbda1430fac259282ab40e0f0f18d38a2d4cc727bc897a52b9f76a6a, 0x0, 1280, 0x341f7f93e4af3f0b3a426d197034fe3e00c56eb9675144d5426e2b5b8c4d0f4)
  ; (0x93c2353f5f3ff4c1d3b390e71fb4f40ccb4fea3ec7c36e6015531c470beae33, 0x1d3c5f8c36e5da873d45bfa1d2399a572ac77493ec089cbf88a37b9e94428422, 1280, 0x17160d11e276b54cbc1cebea0b953b7197ce7879a6bbdcb86043b9d6c02752a3)
  ; (0x4ae0d789c68d9c1d74eba488f5c0ea43aca2c7921b324f352be50e0cbf252c, 0x17160d11e276b54cbc1cebea0b953b7197ce7879a6bbdcb86043b9d6c02752a3, 1280, 0x2dd6d6bc129d5216c99f4a710a6d1d67339912c5bbf6a52f97059db208387a95)
  ; (0x2dd6d6bc129d5216c99f4a710a6d1d67339912c5bbf6a52f97059db208387a95, 0x0, 1280, 0x17a93e70c4a47e73697d0d4e3cc6f58dec047712f4595d71f71865e50fe8b1ec)
  ; (0x500000000000000046, 0x3c0000000000000032, 512, 0xa5a9b572837a82edf23b7b8b008139e5b8da36778b717fec2fa8a2ccc12d284)
  ; (0xa5a9b572837a82edf23b7b8b008139e5b8da36778b717fec2fa8a2ccc12d284, 0x1d3c5f8c36e5da873d45bfa1d2399a572ac77493ec089cbf88a37b9e94428422, 4, 0xea37a37f50c352ed39d2666096454491af70d1a5b5ffd69dacdeaf27b8b8009)
  ; (0x80000000000000007, 0x60000000000000005, 512, 0xeb2430e8fa4bf45bec1dfb81bca654c2a58200a3eab029933ff64a62f326485)
  ; (0x2adc25665018aa1fe0e6bc666dac8fc2, 0x697ff9ba000000000000000000000000, 512, 0x5f8bcc73c3e7ed8cae7b19205ad11ebfdff060d67cbf4fda33c6833227a2b0c)
  ; (0x1a3f3f6fe53e90214f520c7107942d3df7a17955f09a0f440da7d3adda89ef44, 0x29d302d74797278b01416a92cb436fc0e36aba91729625750b09563eb848d30f, 4, 0x3ddd7c92e9b503f26f8477004140492f9c20d258adbf15cf3158ffdfc312e25)
  ; (0x6295ee1b4f6dd65047762f924ecd367c, 0x17eabf8f000000000000000000000000, 512, 0x26f647133d78490f337f0a148ba852086eb769aec7f8bd4f78750a28c4cd3c29)
  ; (0xa94f5374fce5edbc8e2a8697c1533167, 0x7e6ebf0b000000000000000000000000, 512, 0x1a3f3f6fe53e90214f520c7107942d3df7a17955f09a0f440da7d3adda89ef44)
  ; (0x1a3f3f6fe53e90214f520c7107942d3df7a17955f09a0f440da7d3adda89ef44, 0x1ca11e66a5a3b2e984e64214b134067170f71ec0e13f3fc94511826f63cba001, 4, 0x8db62d88afb1fd26686873ebf78dc2c31b02a390aa54e044e73b04fa3ac921)
  ; (0xc5d2460186f7233c927e7db2dcc703c0, 0xe500b653ca82273b7bfad8045d85a470, 512, 0x2c20bbbfb9189e9b7d24c0564daffe5ef0f91ec2b117a0ba44597605b34cd897)
  ; (0x0, 0x2c20bbbfb9189e9b7d24c0564daffe5ef0f91ec2b117a0ba44597605b34cd897, 1280, 0x23ee06c1d2e2c9fab2a21332b45f50c3431c7eb52e7f8413dfa9f92cd1d724a8)
  ; (0x0, 0xde0b6b3a7640000, 1280, 0x24d89bcad99b02dc5a0d008dbd555da4a0a9a12fe66f3f09f6dba72c9560f18f)
  ; (0x24d89bcad99b02dc5a0d008dbd555da4a0a9a12fe66f3f09f6dba72c9560f18f, 0x23ee06c1d2e2c9fab2a21332b45f50c3431c7eb52e7f8413dfa9f92cd1d724a8, 1280, 0xdd779990c6e663623ea39bf9f109532f82814683d2efe974e8c8cae2cfdde20)
  ; (0xdd779990c6e663623ea39bf9f109532f82814683d2efe974e8c8cae2cfdde20, 0x2098f5fb9e239eab3ceac3f27b81e481dc3124d55ffed523a839ee8446b64864, 1280, 0x29d302d74797278b01416a92cb436fc0e36aba91729625750b09563eb848d30f)
  ; (0x1, 0xde0b6b3a7640000, 1280, 0x8e589d9fef90793f386d2ce10a3149fac571db6f390db62edd1129eda767719)
  ; (0x8e589d9fef90793f386d2ce10a3149fac571db6f390db62edd1129eda767719, 0x23ee06c1d2e2c9fab2a21332b45f50c3431c7eb52e7f8413dfa9f92cd1d724a8, 1280, 0x206069db4e5674ceaaf4dc905e8c861997ab2c9a6863a6e9c236939b400fbee3)
  ; (0x206069db4e5674ceaaf4dc905e8c861997ab2c9a6863a6e9c236939b400fbee3, 0x2098f5fb9e239eab3ceac3f27b81e481dc3124d55ffed523a839ee8446b64864, 1280, 0x1ca11e66a5a3b2e984e64214b134067170f71ec0e13f3fc94511826f63cba001)
  ; (0x1a3f3f6fe53e90214f520c7107942d3df7a17955f09a0f440da7d3adda89ef44, 0x5d4d2e68df4c6460d0951f02e8a650209155cd6d40c02fee5231101b89f0ef9, 4, 0x2ebf8b0be0e03f4b3977d1806b9a43c0abd73db5d716c96f57a2caa50018a8b6)
  ; (0x1, 0xde0b6b3a75b6e5e, 1280, 0xbd9b3e0796e7ab75801bc570951348eb83024879409a880cbcee4e0743899c0)
  ; (0xbd9b3e0796e7ab75801bc570951348eb83024879409a880cbcee4e0743899c0, 0x23ee06c1d2e2c9fab2a21332b45f50c3431c7eb52e7f8413dfa9f92cd1d724a8, 1280, 0x17850ae4b8e6b65a1d671834bd41cc3012e4d4cd812c64d0543defb707f8ba42)
  ; (0x17850ae4b8e6b65a1d671834bd41cc3012e4d4cd812c64d0543defb707f8ba42, 0x2098f5fb9e239eab3ceac3f27b81e481dc3124d55ffed523a839ee8446b64864, 1280, 0x5d4d2e68df4c6460d0951f02e8a650209155cd6d40c02fee5231101b89f0ef9)
  ; (0x53000000000000000000000000000000, 0x0, 512, 0x8389bdcf35fead34d26ac16f4638b31e82714ffb6d7c083a1afda53ed6d240e)
  ; (0x53000000000000000000000000000000, 0x2000000000000000000000000, 512, 0x139a6815e4d1fb05c969e6a8036aa5cc06b88751d713326d681bd90448ea64c9) ].

(* src/traces/depth_1_type_1_storage.json *)
Definition real_depth_1_type_1_storage : SMTTrace :=
  (mkTrace (h20 0x03f8133dd5ed58838b20af1296f62f44e69baa48) (h32 0x5cc5740d42ad79f1b9ce9451a084e26632cc9aee8ee7f747a29d07bf8863ed1b)
    ((mkPath (h32 0x75350e959b64b865c76737751c9cfa23f1e35aa416810b8f6b655c85b07aca1c) (Some (mkNode (h32 0x779a269cc632a5d2668d20b01b20489fde58941b322fde4677ef2ebe118e6f20) (h32 0x5cc5740d42ad79f1b9ce9451a084e26632cc9aee8ee7f747a29d07bf8863ed1b) 4)) [(mkNode (h32 0x109004f4385fc231bee2a20b2921e1a9088636bfdb690a647121e1c605de0f01) (h32 0xe5c1fc68d2b728115a6f79fb38ee57ffff5859ebec9caaa7bc54986119ee5c02) 9); (mkNode (h32 0x0359541ab054404bc94af4188de1df74e1cdc8bc80aacb8d9944fe416b2fe621) (h32 0xd454ada20a5db3b7ace82d2bf8aead0ef7da859582da4de86e71cf822ebcc827) 9); (mkNode (h32 0xa69528847504d7d3ce4bc46bb04b82382dda2df17a911c6b299312bcdf06b62f) (h32 0xf9b45f4acabaa7e6937d8dac46059c85188c93404b8b81762c3c1da5746acd0f) 6)]), (mkPath (h32 0xb0cc90cb23834dbcf7c3c359dc13d92bf8e1ab972222db24f37c607502457329) (Some (mkNode (h32 0xb23690306d435fcd7851b61f9e5b584cb2b799b383df49b8aac578759ded7a04) (h32 0x5cc5740d42ad79f1b9ce9451a084e26632cc9aee8ee7f747a29d07bf8863ed1b) 4)) [(mkNode (h32 0xd45136e52dbf61f56933cf3f6a1963e6e1e7f9d8a5ff3de6ceeb4b43ea04b91d) (h32 0xe5c1fc68d2b728115a6f79fb38ee57ffff5859ebec9caaa7bc54986119ee5c02) 9); (mkNode (h32 0x9034c0822065b65b03ad4b45e28f8b5d4e1d0ae0c0a3ea0fc582d30ed4e16b00) (h32 0xd454ada20a5db3b7ace82d2bf8aead0ef7da859582da4de86e71cf822ebcc827) 9); (mkNode (h32 0x27bc4f663b5a51827390b6940763918440f96cea2bbbaf3d6bc386489d60ba11) (h32 0xf9b45f4acabaa7e6937d8dac46059c85188c93404b8b81762c3c1da5746acd0f) 6)]))
    ((Some (mkAccountData 1 0x0 0x16fc66d15010e6213d2a009f57ed8e847717ea0b83eeb37cd322e9ad1b018a3e 0x0d85b09a93d5ed99a87d27dcf6d50e4459d16bb694e70f89eefcb745ea1c85e7 4507)), (Some (mkAccountData 1 0x0 0x16fc66d15010e6213d2a009f57ed8e847717ea0b83eeb37cd322e9ad1b018a3e 0x0d85b09a93d5ed99a87d27dcf6d50e4459d16bb694e70f89eefcb745ea1c85e7 4507)))
    ((Some (mkPath (h32 0xa6d1ca9e941bc47b27ef7bbbecb327d2e3183ab6b729014b2f33f70a079f610a) (Some (mkNode (h32 0x2e1cb8b9dc00f6834b26d763e0733c3045a0e2262f5b4a1fd16a99b099b8dc0a) (h32 0xebbde6853f0d7fd5c795a751c763ee866f603ddd45a59a14ad1189f04105c506) 4)) [(mkNode (h32 0xb2f29b80761a58f1144c3afeb97b7a8d8ddb9fe9bbbd2efabec9401a7937980a) (h32 0xd1a4b5f37b62fd698f85d93925f579394db4404e186f21e6df6670f23bc9d027) 6)])), (Some (mkPath (h32 0x94571a8d28220d48d3db2ee8be4a4f42fb20e4c09325397bc4e36d80f0de3b21) (Some (mkNode (h32 0x937d5f0461f0cc3c2607ade7f55e4c0952b5977d73a97392e054f0c95b3f3300) (h32 0x775788db2d0c83b883dc4705090775d5ba4fdca68379a90e9c48e3b6529ded1a) 4)) [(mkNode (h32 0x37f76144ee25efb94ae9609251c9fa4cd19648d74454805bfab59183fad1eb01) (h32 0xd1a4b5f37b62fd698f85d93925f579394db4404e186f21e6df6670f23bc9d027) 7); (mkNode (h32 0x766dfedbd4683dff3d7e1fbd3c274a1cf2b4286c369e4bf7b69a0ef0bb364710) (h32 0x0000000000000000000000000000000000000000000000000000000000000000) 7); (mkNode (h32 0x804597600908545e7ba96b5f7e3b3010d6d041af15226770d6f9886286d72313) (h32 0xb2f29b80761a58f1144c3afeb97b7a8d8ddb9fe9bbbd2efabec9401a7937980a) 6)])))
    None (Some (h32 0x775788db2d0c83b883dc4705090775d5ba4fdca68379a90e9c48e3b6529ded1a)) (Some ((Some (mkStateData (h32 0x0000000000000000000000000000000000000000000000000000000000000005) (h32 0x0000000000000000000000000000000000000000000000000000000000000000))), (Some (mkStateData (h32 0x0000000000000000000000000000000000000000000000000000000000000005) (h32 0x000000000000000000001c5a77d9fa7ef466951b2f01f724bca3a5820b630012)))))).
(* src/traces/empty_account_type_1.json *)
Definition real_empty_account_type_1 : SMTTrace :=
  (mkTrace (h20 0x0000000000000000000000000000000000000000) (h32 0x228442949e7ba388bf9c08ec9374c72a579a39d2a1bf453d87dae5368c5f3c1d)
    ((mkPath (h32 0xb3e9ff02c109b1d6aefa774523aaf5bef1207226e85a3726ecb505227ad1e621) (Some (mkNode (h32 0xd5183cce27ff45da94689d72d862770b5d6ff7315de77ef74d4e4318ac14ea11) (h32 0x12c81213be899bb64430611a4aa90214650855786bbec94bc0aea8780cf7fb1f) 4)) [(mkNode (h32 0xa66d39d51412f50d7df0c6388c765c74b023a3e5d9eba9cbc80b6ef17f76ab1e) (h32 0x4c132495916e6529f791ad1d6977c5b9cf8720a58a7f196ea6fae35dffd80c15) 9); (mkNode (h32 0x03703ecd3a382e78f6dd10259d232f45e22b592e2c91c091f3333ba8fc8ddb0a) (h32 0x0893ab6eb7dfbe3908cf199964e5a8eaa42673fee2dc4cdfdff46a037e100a08) 9); (mkNode (h32 0x936f5938a27c18791e4ed02b0a1ac88b3e09f4f8c3a84f1a9a75fa8f516ef902) (h32 0xd9c820802763f8140cd3557566054ddbddacb4433830a7bb0e30c1db08dfa914) 6)]), (mkPath (h32 0xb3e9ff02c109b1d6aefa774523aaf5bef1207226e85a3726ecb505227ad1e621) (Some (mkNode (h32 0xd5183cce27ff45da94689d72d862770b5d6ff7315de77ef74d4e4318ac14ea11) (h32 0x12c81213be899bb64430611a4aa90214650855786bbec94bc0aea8780cf7fb1f) 4)) [(mkNode (h32 0xa66d39d51412f50d7df0c6388c765c74b023a3e5d9eba9cbc80b6ef17f76ab1e) (h32 0x4c132495916e6529f791ad1d6977c5b9cf8720a58a7f196ea6fae35dffd80c15) 9); (mkNode (h32 0x03703ecd3a382e78f6dd10259d232f45e22b592e2c91c091f3333ba8fc8ddb0a) (h32 0x0893ab6eb7dfbe3908cf199964e5a8eaa42673fee2dc4cdfdff46a037e100a08) 9); (mkNode (h32 0x936f5938a27c18791e4ed02b0a1ac88b3e09f4f8c3a84f1a9a75fa8f516ef902) (h32 0xd9c820802763f8140cd3557566054ddbddacb4433830a7bb0e30c1db08dfa914) 6)]))
    (None, None)
    (None, None)
    (Some (h32 0x0000000000000000000000000000000000000000000000000000000000000000)) None None).
(* src/traces/empty_account_type_1_balance_update.json *)
Definition real_empty_account_type_1_balance_update : SMTTrace :=
  (mkTrace (h20 0x0000000000000000000000000000000000000000) (h32 0x228442949e7ba388bf9c08ec9374c72a579a39d2a1bf453d87dae5368c5f3c1d)
    ((mkPath (h32 0xb3e9ff02c109b1d6aefa774523aaf5bef1207226e85a3726ecb505227ad1e621) (Some (mkNode (h32 0xd5183cce27ff45da94689d72d862770b5d6ff7315de77ef74d4e4318ac14ea11) (h32 0x12c81213be899bb64430611a4aa90214650855786bbec94bc0aea8780cf7fb1f) 4)) [(mkNode (h32 0xa66d39d51412f50d7df0c6388c765c74b023a3e5d9eba9cbc80b6ef17f76ab1e) (h32 0x4c132495916e6529f791ad1d6977c5b9cf8720a58a7f196ea6fae35dffd80c15) 9); (mkNode (h32 0x03703ecd3a382e78f6dd10259d232f45e22b592e2c91c091f3333ba8fc8ddb0a) (h32 0x0893ab6eb7dfbe3908cf199964e5a8eaa42673fee2dc4cdfdff46a037e100a08) 9); (mkNode (h32 0x936f5938a27c18791e4ed02b0a1ac88b3e09f4f8c3a84f1a9a75fa8f516ef902) (h32 0xd9c820802763f8140cd3557566054ddbddacb4433830a7bb0e30c1db08dfa914) 6)]), (mkPath (h32 0x2d38fa2f00a562151220ff34ed775c691317d7d5fec1c6be447faa300ecd4004) (Some (mkNode (h32 0xd40db0ee83e5d59382ab7774bf76b2c0a2ed10883acebdb44e0b05d1d0f57e11) (h32 0x228442949e7ba388bf9c08ec9374c72a579a39d2a1bf453d87dae5368c5f3c1d) 4)) [(mkNode (h32 0x29a4a36016f84ad2e2084cebee65859144e77b6f2bb08f568433dcd46801a727) (h32 0x4c132495916e6529f791ad1d6977c5b9cf8720a58a7f196ea6fae35dffd80c15) 9); (mkNode (h32 0xd734c75c45b9fbe3aab7b3bcbe20967dd6568d33e611a6aaf0817cfa49646d19) (h32 0x0893ab6eb7dfbe3908cf199964e5a8eaa42673fee2dc4cdfdff46a037e100a08) 9); (mkNode (h32 0xf5a63132857ec8fe95ccd1f08b1a8a6f3089088e529925cbc3f4448ba6aea225) (h32 0xd9c820802763f8140cd3557566054ddbddacb4433830a7bb0e30c1db08dfa914) 8); (mkNode (h32 0x8af58c490690e30fae9c999638473b5e2a0e72a892e2a5603670663b419fd90c) (h32 0x0000000000000000000000000000000000000000000000000000000000000000) 8); (mkNode (h32 0xbd652a8fd7bfe57630c2504e1b9fbe15da66f033274ee8f49b0dee77d447c504) (h32 0x936f5938a27c18791e4ed02b0a1ac88b3e09f4f8c3a84f1a9a75fa8f516ef902) 6)]))
    (None, (Some (mkAccountData 0 0xc8 0x0000000000000000000000000000000000000000000000000000000000000000 0x0000000000000000000000000000000000000000000000000000000000000000 0)))
    (None, None)
    (Some (h32 0x0000000000000000000000000000000000000000000000000000000000000000)) None None).
(* src/traces/empty_account_type_1_nonce_update.json *)
Definition real_empty_account_type_1_nonce_update : SMTTrace :=
  (mkTrace (h20 0x0b0b0b0b0b0b0b0b0b0b0b0b0b0b0b0b0b0b0b0b) (h32 0xf732e39dd1c1d610d1e5ba97c55c156bf2e9b3c9f13d26f655ea18796bdda90f)
    ((mkPath (h32 0xb3e9ff02c109b1d6aefa774523aaf5bef1207226e85a3726ecb505227ad1e621) (Some (mkNode (h32 0xd5183cce27ff45da94689d72d862770b5d6ff7315de77ef74d4e4318ac14ea11) (h32 0xff2cc690b31f32da9f69ee898d38396be2b418bcd781e2f504c823a9e3b5990c) 4)) [(mkNode (h32 0x4c132495916e6529f791ad1d6977c5b9cf8720a58a7f196ea6fae35dffd80c15) (h32 0xa66d39d51412f50d7df0c6388c765c74b023a3e5d9eba9cbc80b6ef17f76ab1e) 9); (mkNode (h32 0xea63c2cf7aaed65918936ba7b61df455d10abed099b690d5b14825ed27aa7e1a) (h32 0xf485d05d32be22082faed55e8c38826fec4a8250f41ce4639d51fb249c322127) 9); (mkNode (h32 0xebb8b01466f6764df4b8b2a3d180b849b9616c536c0a4b6f107e3b10a739761e) (h32 0x0f83a2e43aa2c5994001f58a94b99b65f39449455e291766d20feca59209cd08) 6)]), (mkPath (h32 0x995ccb91b8d6c660027d0c7e2db4442d5942f13c43dfb51251e2f3e113b53503) (Some (mkNode (h32 0xf42020e24a87c5f7f00d7bf90ae137bb7cb8d23611627ce0f46e74470af77207) (h32 0xf732e39dd1c1d610d1e5ba97c55c156bf2e9b3c9f13d26f655ea18796bdda90f) 4)) [(mkNode (h32 0x5b6939dabed655dee192be83c56f2633365766e642610f155488e2549c0b5303) (h32 0xa66d39d51412f50d7df0c6388c765c74b023a3e5d9eba9cbc80b6ef17f76ab1e) 9); (mkNode (h32 0x00f167b0fc5c5af2b84e520ccdbe33952ab69e266356c114bba458c067d3b21e) (h32 0xf485d05d32be22082faed55e8c38826fec4a8250f41ce4639d51fb249c322127) 9); (mkNode (h32 0x50b84b89e48fa46c8b95265c085c7b828feb3b68c19a1de01548f1089e00da01) (h32 0x0f83a2e43aa2c5994001f58a94b99b65f39449455e291766d20feca59209cd08) 7); (mkNode (h32 0x24ea2477f449b36f9059936a59394e3bc7df2724cf6934ee35aaa791722b4b30) (h32 0xebb8b01466f6764df4b8b2a3d180b849b9616c536c0a4b6f107e3b10a739761e) 6)]))
    (None, (Some (mkAccountData 200 0x0 0x0000000000000000000000000000000000000000000000000000000000000000 0x0000000000000000000000000000000000000000000000000000000000000000 0)))
    (None, None)
    (Some (h32 0x0000000000000000000000000000000000000000000000000000000000000000)) None None).
(* src/traces/empty_account_type_2.json *)
Definition real_empty_account_type_2 : SMTTrace :=
  (mkTrace (h20 0x1414141414141414141414141414141414141414) (h32 0x0528ff2808cf785c378aaf2765ac1000c537dbd43cb0022b2387f200ba160324)
    ((mkPath (h32 0xb3e9ff02c109b1d6aefa774523aaf5bef1207226e85a3726ecb505227ad1e621) None [(mkNode (h32 0x4c132495916e6529f791ad1d6977c5b9cf8720a58a7f196ea6fae35dffd80c15) (h32 0xa66d39d51412f50d7df0c6388c765c74b023a3e5d9eba9cbc80b6ef17f76ab1e) 9); (mkNode (h32 0xf485d05d32be22082faed55e8c38826fec4a8250f41ce4639d51fb249c322127) (h32 0xea63c2cf7aaed65918936ba7b61df455d10abed099b690d5b14825ed27aa7e1a) 9); (mkNode (h32 0x0000000000000000000000000000000000000000000000000000000000000000) (h32 0xa6a9b79363aac191b917d19aadd68390479fb9b83a481186e30beecf2c338812) 8)]), (mkPath (h32 0xb3e9ff02c109b1d6aefa774523aaf5bef1207226e85a3726ecb505227ad1e621) None [(mkNode (h32 0x4c132495916e6529f791ad1d6977c5b9cf8720a58a7f196ea6fae35dffd80c15) (h32 0xa66d39d51412f50d7df0c6388c765c74b023a3e5d9eba9cbc80b6ef17f76ab1e) 9); (mkNode (h32 0xf485d05d32be22082faed55e8c38826fec4a8250f41ce4639d51fb249c322127) (h32 0xea63c2cf7aaed65918936ba7b61df455d10abed099b690d5b14825ed27aa7e1a) 9); (mkNode (h32 0x0000000000000000000000000000000000000000000000000000000000000000) (h32 0xa6a9b79363aac191b917d19aadd68390479fb9b83a481186e30beecf2c338812) 8)]))
    (None, None)
    (None, None)
    (Some (h32 0x0000000000000000000000000000000000000000000000000000000000000000)) None None).
(* src/traces/empty_account_type_2_balance_update.json *)
Definition real_empty_account_type_2_balance_update : SMTTrace :=
  (mkTrace (h20 0x1414141414141414141414141414141414141414) (h32 0x0528ff2808cf785c378aaf2765ac1000c537dbd43cb0022b2387f200ba160324)
    ((mkPath (h32 0xb3e9ff02c109b1d6aefa774523aaf5bef1207226e85a3726ecb505227ad1e621) None [(mkNode (h32 0x4c132495916e6529f791ad1d6977c5b9cf8720a58a7f196ea6fae35dffd80c15) (h32 0xa66d39d51412f50d7df0c6388c765c74b023a3e5d9eba9cbc80b6ef17f76ab1e) 9); (mkNode (h32 0xf485d05d32be22082faed55e8c38826fec4a8250f41ce4639d51fb249c322127) (h32 0xea63c2cf7aaed65918936ba7b61df455d10abed099b690d5b14825ed27aa7e1a) 9); (mkNode (h32 0x0000000000000000000000000000000000000000000000000000000000000000) (h32 0xa6a9b79363aac191b917d19aadd68390479fb9b83a481186e30beecf2c338812) 8)]), (mkPath (h32 0x5a2414efcc32e8be0e1d26a4a3f46ee4ff8211c44220dbdd64960bb0fce5b722) (Some (mkNode (h32 0x0d4de0a5d4665c3881fec254a7f1cb43ab19f029249081648edc6bfe3f16a610) (h32 0x0528ff2808cf785c378aaf2765ac1000c537dbd43cb0022b2387f200ba160324) 4)) [(mkNode (h32 0x95a80bcaea9bb560c48f62956dd193398bd4cbad882e8068cf422894fee6c92a) (h32 0xa66d39d51412f50d7df0c6388c765c74b023a3e5d9eba9cbc80b6ef17f76ab1e) 9); (mkNode (h32 0x66f056352b83824dcfa7b41df3d23aa80b36014068572a2e57273357a0f0c22d) (h32 0xea63c2cf7aaed65918936ba7b61df455d10abed099b690d5b14825ed27aa7e1a) 9); (mkNode (h32 0x8e80d651ba2bec43ee4c9d929740149affbe4327f21d8c7c7944bc88430b271c) (h32 0xa6a9b79363aac191b917d19aadd68390479fb9b83a481186e30beecf2c338812) 8)]))
    (None, (Some (mkAccountData 0 0x1caac51a83 0x0000000000000000000000000000000000000000000000000000000000000000 0x0000000000000000000000000000000000000000000000000000000000000000 0)))
    (None, None)
    (Some (h32 0x0000000000000000000000000000000000000000000000000000000000000000)) None None).
(* src/traces/empty_account_type_2_nonce_update.json *)
Definition real_empty_account_type_2_nonce_update : SMTTrace :=
  (mkTrace (h20 0x1414141414141414141414141414141414141414) (h32 0x0528ff2808cf785c378aaf2765ac1000c537dbd43cb0022b2387f200ba160324)
    ((mkPath (h32 0xb3e9ff02c109b1d6aefa774523aaf5bef1207226e85a3726ecb505227ad1e621) None [(mkNode (h32 0x4c132495916e6529f791ad1d6977c5b9cf8720a58a7f196ea6fae35dffd80c15) (h32 0xa66d39d51412f50d7df0c6388c765c74b023a3e5d9eba9cbc80b6ef17f76ab1e) 9); (mkNode (h32 0xf485d05d32be22082faed55e8c38826fec4a8250f41ce4639d51fb249c322127) (h32 0xea63c2cf7aaed65918936ba7b61df455d10abed099b690d5b14825ed27aa7e1a) 9); (mkNode (h32 0x0000000000000000000000000000000000000000000000000000000000000000) (h32 0xa6a9b79363aac191b917d19aadd68390479fb9b83a481186e30beecf2c338812) 8)]), (mkPath (h32 0xd9f27a88ad2093314ec125c48ddd1178da1db83142335ecf4958f3f5a3678b23) (Some (mkNode (h32 0x65c44a49797f54ab3bf14e751b8c59c65fee50513b60467decd2defc3e424319) (h32 0x0528ff2808cf785c378aaf2765ac1000c537dbd43cb0022b2387f200ba160324) 4)) [(mkNode (h32 0x184f988ad75b2e5bb8cfb6e3c2c157a2621d11a892db5a0a909370f4eaf42d16) (h32 0xa66d39d51412f50d7df0c6388c765c74b023a3e5d9eba9cbc80b6ef17f76ab1e) 9); (mkNode (h32 0xbcead335ea114e6112030c0c12e1a59495163e8f20e72231f069d4b76921ec12) (h32 0xea63c2cf7aaed65918936ba7b61df455d10abed099b690d5b14825ed27aa7e1a) 9); (mkNode (h32 0x17a80fbb505406ea3d7d84b86c84e09d13986e58799111b50ac5d1cfb438fa1b) (h32 0xa6a9b79363aac191b917d19aadd68390479fb9b83a481186e30beecf2c338812) 8)]))
    (None, (Some (mkAccountData 123124128387 0x0 0x0000000000000000000000000000000000000000000000000000000000000000 0x0000000000000000000000000000000000000000000000000000000000000000 0)))
    (None, None)
    (Some (h32 0x0000000000000000000000000000000000000000000000000000000000000000)) None None).
(* src/traces/empty_storage_type_1_update_a.json *)
Definition real_empty_storage_type_1_update_a : SMTTrace :=
  (mkTrace (h20 0x0101010101010101010101010101010101010101) (h32 0x2368fc91ec42cf498e51d1796cfcacf1efb26920e114962fb9c4763b1080341d)
    ((mkPath (h32 0xb696019bc06c70a975c602aa0d7a1fa25c04e18cf48d7b4ead1ad980481d6616) (Some (mkNode (h32 0xd472374b1135b67ffc1d5414460fe3b4efaf31ce9ae4c83d1364ba87a9472a2c) (h32 0x2368fc91ec42cf498e51d1796cfcacf1efb26920e114962fb9c4763b1080341d) 4)) [(mkNode (h32 0xa8ba04fc659bc821c6dbc1f6775dcb9e83dd215a1943c6a6c5375bdb65498b24) (h32 0xa66d39d51412f50d7df0c6388c765c74b023a3e5d9eba9cbc80b6ef17f76ab1e) 9); (mkNode (h32 0x339130a89388cf0ced2bb4f9b4e5073930e4121e16ee46e301acfcce18a3220d) (h32 0xf485d05d32be22082faed55e8c38826fec4a8250f41ce4639d51fb249c322127) 9); (mkNode (h32 0x1488ae111aac349974efc97e73fc7415540a43249af5155997dbb0c2f22fc201) (h32 0xebb8b01466f6764df4b8b2a3d180b849b9616c536c0a4b6f107e3b10a739761e) 6)]), (mkPath (h32 0x1e61b81343b4726a39b25af4fcd4809d2599b7344a26310c2ff3ea538b1bb720) (Some (mkNode (h32 0xf40471ec703f0c374188ffc2658895da71ba12520daa93978d162ff2ca71b900) (h32 0x2368fc91ec42cf498e51d1796cfcacf1efb26920e114962fb9c4763b1080341d) 4)) [(mkNode (h32 0xfe041df6af919fb3d132f5257e5dba276fcee9ac9b19513717485f9722645317) (h32 0xa66d39d51412f50d7df0c6388c765c74b023a3e5d9eba9cbc80b6ef17f76ab1e) 9); (mkNode (h32 0x15dd24c77e607e3b9ab731dc2370c289e8d383edbd407448b824e17857d6e60c) (h32 0xf485d05d32be22082faed55e8c38826fec4a8250f41ce4639d51fb249c322127) 9); (mkNode (h32 0x97964b77683ae9296232eec09287a5292fdcabad5ad45043b9b281aa8c9ebf05) (h32 0xebb8b01466f6764df4b8b2a3d180b849b9616c536c0a4b6f107e3b10a739761e) 6)]))
    ((Some (mkAccountData 0 0x1 0x0000000000000000000000000000000000000000000000000000000000000000 0x0000000000000000000000000000000000000000000000000000000000000000 0)), (Some (mkAccountData 0 0x1 0x0000000000000000000000000000000000000000000000000000000000000000 0x0000000000000000000000000000000000000000000000000000000000000000 0)))
    ((Some (mkPath (h32 0x9f8447ba78ad7e1c7566d9242c8c6d77f02dfe081717cb0a1fe024485735290e) (Some (mkNode (h32 0x50ea2e5d1d10a9ebc255098ff2670e4a4faaa8018a07eb92340063dea69b0426) (h32 0x34d524b5f5f6d93367bf6b6452a1aa7e17d8696555258de41be8002cc6cdd42f) 4)) [(mkNode (h32 0xf4d5d6e3ae2e36f7a099a2a7ed72432b173f3211c0c2b4d4e10e023030428829) (h32 0x233ebad9cd643db2577e9a70c76a24705fc5e4f3b450c3bdcab4b7162a1e7012) 9); (mkNode (h32 0x5d1276a69a4026e4fef7bcaf66a6a11282ec2a1607f2b245b8acb8fc9bd08927) (h32 0xf0691fb03392278193e2b56be466d7c6ce4e11e9095cc4a5e5f3bc2dfa96df20) 9); (mkNode (h32 0xd544f1089502952ca7f9a7c7a36e673ffe940269b1db269cfa325683bc580c28) (h32 0x3e284a214b6cc48e7efb52245561b1341d66871759eff8a4c6651abb9885f005) 9); (mkNode (h32 0xff54e4d29e6dcde6784ec1cdacbd6a30092719795f45f08a50e7514d0ed09a1e) (h32 0xf20a556d831214034d26d72d4298b438082aeea33d871201a38432b243adc628) 7)])), (Some (mkPath (h32 0xb63c17f2fe2bd4edc7362246aff9b8d02c0819fec8be095f6b4f0a1916599b1a) (Some (mkNode (h32 0xbf4245864783af356463b2c5af200bb87bc64171dd99a8ac0acc67bfa408f600) (h32 0xd4bbd1bcd3b00b743d57005fd62af4e0df6c021c92288e1bf5ede810b09c590a) 4)) [(mkNode (h32 0x588ed0bd87bffa44e23f0842666d0884bbfb882c9423b216caf73211ab5cdc03) (h32 0x233ebad9cd643db2577e9a70c76a24705fc5e4f3b450c3bdcab4b7162a1e7012) 9); (mkNode (h32 0xbd78042c295097e3e5105483f361c663aec5827d3bd66a7e7651ba9453b24414) (h32 0xf0691fb03392278193e2b56be466d7c6ce4e11e9095cc4a5e5f3bc2dfa96df20) 9); (mkNode (h32 0x992cc9c028bb8b94dd8e81f8457618f9db67d76284cea3cc0989b4afbefe2e1a) (h32 0x3e284a214b6cc48e7efb52245561b1341d66871759eff8a4c6651abb9885f005) 9); (mkNode (h32 0xbfac6f01d0f8f2f32bd5c7a6c9c74a44f6a48df0bb8d2fde126feac487209f23) (h32 0xf20a556d831214034d26d72d4298b438082aeea33d871201a38432b243adc628) 9); (mkNode (h32 0xc6f68f9dcb9ede21466846e4fd907298de88431525a39c8d35a9f15d49e81f1f) (h32 0x0000000000000000000000000000000000000000000000000000000000000000) 7); (mkNode (h32 0x70063bdea0ed4a911f714843e09cbb626727deae7cebbd78a5d693f5249a8407) (h32 0xff54e4d29e6dcde6784ec1cdacbd6a30092719795f45f08a50e7514d0ed09a1e) 6)])))
    None (Some (h32 0xd4bbd1bcd3b00b743d57005fd62af4e0df6c021c92288e1bf5ede810b09c590a)) (Some ((Some (mkStateData (h32 0x0000000000000000000000000000000000000000000000000000000001653e61) (h32 0x0000000000000000000000000000000000000000000000000000000000000000))), (Some (mkStateData (h32 0x0000000000000000000000000000000000000000000000000000000001653e61) (h32 0x0000000000000000000000000000000000000000000000000000000000000133)))))).
(* src/traces/empty_storage_type_1_update_b.json *)
Definition real_empty_storage_type_1_update_b : SMTTrace :=
  (mkTrace (h20 0x0101010101010101010101010101010101010101) (h32 0x2368fc91ec42cf498e51d1796cfcacf1efb26920e114962fb9c4763b1080341d)
    ((mkPath (h32 0xb696019bc06c70a975c602aa0d7a1fa25c04e18cf48d7b4ead1ad980481d6616) (Some (mkNode (h32 0xd472374b1135b67ffc1d5414460fe3b4efaf31ce9ae4c83d1364ba87a9472a2c) (h32 0x2368fc91ec42cf498e51d1796cfcacf1efb26920e114962fb9c4763b1080341d) 4)) [(mkNode (h32 0xa8ba04fc659bc821c6dbc1f6775dcb9e83dd215a1943c6a6c5375bdb65498b24) (h32 0xa66d39d51412f50d7df0c6388c765c74b023a3e5d9eba9cbc80b6ef17f76ab1e) 9); (mkNode (h32 0x339130a89388cf0ced2bb4f9b4e5073930e4121e16ee46e301acfcce18a3220d) (h32 0xf485d05d32be22082faed55e8c38826fec4a8250f41ce4639d51fb249c322127) 9); (mkNode (h32 0x1488ae111aac349974efc97e73fc7415540a43249af5155997dbb0c2f22fc201) (h32 0xebb8b01466f6764df4b8b2a3d180b849b9616c536c0a4b6f107e3b10a739761e) 6)]), (mkPath (h32 0x6c38c8de8bea480ef70ec2857ec2b02d756dcdfc0e253583e418a39b6e41cb08) (Some (mkNode (h32 0x006a1519d7385d14cd2ee1fbb9244538d87881fc21f4aa0bcaaa9727573acd21) (h32 0x2368fc91ec42cf498e51d1796cfcacf1efb26920e114962fb9c4763b1080341d) 4)) [(mkNode (h32 0x54642d6c934cf174fd3a9a31ddd9cd362cda12dfb8672326ca64f397a4021321) (h32 0xa66d39d51412f50d7df0c6388c765c74b023a3e5d9eba9cbc80b6ef17f76ab1e) 9); (mkNode (h32 0x0436b0eb300b841ff31899d3b7bbddfe5c8ca6c4bca9107492ebd2191b5c5828) (h32 0xf485d05d32be22082faed55e8c38826fec4a8250f41ce4639d51fb249c322127) 9); (mkNode (h32 0xaa892597b4515a5f8561996f9cc44546d549234717b4216c5c64baa60b3b9f11) (h32 0xebb8b01466f6764df4b8b2a3d180b849b9616c536c0a4b6f107e3b10a739761e) 6)]))
    ((Some (mkAccountData 0 0x1 0x0000000000000000000000000000000000000000000000000000000000000000 0x0000000000000000000000000000000000000000000000000000000000000000 0)), (Some (mkAccountData 0 0x1 0x0000000000000000000000000000000000000000000000000000000000000000 0x0000000000000000000000000000000000000000000000000000000000000000 0)))
    ((Some (mkPath (h32 0x9f8447ba78ad7e1c7566d9242c8c6d77f02dfe081717cb0a1fe024485735290e) (Some (mkNode (h32 0x50ea2e5d1d10a9ebc255098ff2670e4a4faaa8018a07eb92340063dea69b0426) (h32 0x9044c8b6fcf025b005c278f6f154d7cba8c4603e9e597062c7b271a3c4496817) 4)) [(mkNode (h32 0xf4d5d6e3ae2e36f7a099a2a7ed72432b173f3211c0c2b4d4e10e023030428829) (h32 0x233ebad9cd643db2577e9a70c76a24705fc5e4f3b450c3bdcab4b7162a1e7012) 9); (mkNode (h32 0x5d1276a69a4026e4fef7bcaf66a6a11282ec2a1607f2b245b8acb8fc9bd08927) (h32 0xf0691fb03392278193e2b56be466d7c6ce4e11e9095cc4a5e5f3bc2dfa96df20) 9); (mkNode (h32 0x3e284a214b6cc48e7efb52245561b1341d66871759eff8a4c6651abb9885f005) (h32 0xd544f1089502952ca7f9a7c7a36e673ffe940269b1db269cfa325683bc580c28) 9); (mkNode (h32 0x732b296b79456bb32d998aa557d9335f3a847412aad9b2cd4af86a103c333603) (h32 0x0000000000000000000000000000000000000000000000000000000000000000) 8); (mkNode (h32 0x0d68bfd900eefa2da50c92edbadb07b55d8b47377b79fe0c4e81c0ad432e7517) (h32 0x390c14944e6a7e0b36d897675cd4ecec16ebd5629b2f9c4979262f32dcae6915) 8)])), (Some (mkPath (h32 0x07417bd293ebf64ba5aef2c9935f515af0f04cef28976dbf74e37a017c2f6a2d) (Some (mkNode (h32 0xbf4245864783af356463b2c5af200bb87bc64171dd99a8ac0acc67bfa408f600) (h32 0x50ea2e5d1d10a9ebc255098ff2670e4a4faaa8018a07eb92340063dea69b0426) 4)) [(mkNode (h32 0x67b79477297dfba8ab91ed5db6e9c410be0ca3a5995359fcc4e4f499a3246300) (h32 0x233ebad9cd643db2577e9a70c76a24705fc5e4f3b450c3bdcab4b7162a1e7012) 9); (mkNode (h32 0x9982dc7769358bd94d2fbf8835bb7f39d681ac3aea293d9ff359d8dd5f238e1e) (h32 0xf0691fb03392278193e2b56be466d7c6ce4e11e9095cc4a5e5f3bc2dfa96df20) 9); (mkNode (h32 0xb58bdec478b90d340305a2b03e6c45960ddff6ce3a4e25eb6fb2d25bf20ace12) (h32 0xd544f1089502952ca7f9a7c7a36e673ffe940269b1db269cfa325683bc580c28) 9); (mkNode (h32 0xb5d0c825b78df3062a1bbe96527074610286568e2b0e4661dfd752a220420b03) (h32 0x0000000000000000000000000000000000000000000000000000000000000000) 8); (mkNode (h32 0xe175e7ee923b9ce62cd3c2e462a2f67e43ab9ebbaf9d42030e67e9d133fe512f) (h32 0x390c14944e6a7e0b36d897675cd4ecec16ebd5629b2f9c4979262f32dcae6915) 9); (mkNode (h32 0xaf7efe4bdfcdb6dc0d89fdf6ffe58028167ea9104c51e3814c613d5dc108b50e) (h32 0x0000000000000000000000000000000000000000000000000000000000000000) 8); (mkNode (h32 0x880915c46ba6c99ad943046fea16ea056c3d3112150a07c88b6640e5299a6805) (h32 0x0d68bfd900eefa2da50c92edbadb07b55d8b47377b79fe0c4e81c0ad432e7517) 6)])))
    None (Some (h32 0x50ea2e5d1d10a9ebc255098ff2670e4a4faaa8018a07eb92340063dea69b0426)) (Some ((Some (mkStateData (h32 0x0000000000000000000000000000000000000000000000000000000000000001) (h32 0x0000000000000000000000000000000000000000000000000000000000000000))), (Some (mkStateData (h32 0x0000000000000000000000000000000000000000000000000000000000000001) (h32 0x0000000000000000000000000000000000000000000000000000000000000133)))))).
(* src/traces/empty_storage_type_1_update_c.json *)
Definition real_empty_storage_type_1_update_c : SMTTrace :=
  (mkTrace (h20 0x0101010101010101010101010101010101010101) (h32 0x2368fc91ec42cf498e51d1796cfcacf1efb26920e114962fb9c4763b1080341d)
    ((mkPath (h32 0xb696019bc06c70a975c602aa0d7a1fa25c04e18cf48d7b4ead1ad980481d6616) (Some (mkNode (h32 0xd472374b1135b67ffc1d5414460fe3b4efaf31ce9ae4c83d1364ba87a9472a2c) (h32 0x2368fc91ec42cf498e51d1796cfcacf1efb26920e114962fb9c4763b1080341d) 4)) [(mkNode (h32 0xa8ba04fc659bc821c6dbc1f6775dcb9e83dd215a1943c6a6c5375bdb65498b24) (h32 0xa66d39d51412f50d7df0c6388c765c74b023a3e5d9eba9cbc80b6ef17f76ab1e) 9); (mkNode (h32 0x339130a89388cf0ced2bb4f9b4e5073930e4121e16ee46e301acfcce18a3220d) (h32 0xf485d05d32be22082faed55e8c38826fec4a8250f41ce4639d51fb249c322127) 9); (mkNode (h32 0x1488ae111aac349974efc97e73fc7415540a43249af5155997dbb0c2f22fc201) (h32 0xebb8b01466f6764df4b8b2a3d180b849b9616c536c0a4b6f107e3b10a739761e) 6)]), (mkPath (h32 0xce4173f31ef0012e08c88e1b6c5ca0bfa2fa4fbb83c6321050ec23629eeab710) (Some (mkNode (h32 0xd2d01beada4773f453ea5c55274eb25b5bb6d392c3140a0daa63065b2d601d01) (h32 0x2368fc91ec42cf498e51d1796cfcacf1efb26920e114962fb9c4763b1080341d) 4)) [(mkNode (h32 0x34c4cf2a144557fc872c5789e62836fc1c99080a09a5757d0355cba44cdf7914) (h32 0xa66d39d51412f50d7df0c6388c765c74b023a3e5d9eba9cbc80b6ef17f76ab1e) 9); (mkNode (h32 0x401a87991073a13293e8add521220ba66fda87152d2e010d4bd03d3be6f3af1f) (h32 0xf485d05d32be22082faed55e8c38826fec4a8250f41ce4639d51fb249c322127) 9); (mkNode (h32 0xdc15ac9869d9fbff4002a4a2f7b78d6fb349736fa5c5838998fab0b0a9833e21) (h32 0xebb8b01466f6764df4b8b2a3d180b849b9616c536c0a4b6f107e3b10a739761e) 6)]))
    ((Some (mkAccountData 0 0x1 0x0000000000000000000000000000000000000000000000000000000000000000 0x0000000000000000000000000000000000000000000000000000000000000000 0)), (Some (mkAccountData 0 0x1 0x0000000000000000000000000000000000000000000000000000000000000000 0x0000000000000000000000000000000000000000000000000000000000000000 0)))
    ((Some (mkPath (h32 0x9f8447ba78ad7e1c7566d9242c8c6d77f02dfe081717cb0a1fe024485735290e) (Some (mkNode (h32 0x50ea2e5d1d10a9ebc255098ff2670e4a4faaa8018a07eb92340063dea69b0426) (h32 0x630fe719918f65244b259027991431bc0fde4bd0aad4bf82b7f4e022b20cff12) 4)) [(mkNode (h32 0x233ebad9cd643db2577e9a70c76a24705fc5e4f3b450c3bdcab4b7162a1e7012) (h32 0xf4d5d6e3ae2e36f7a099a2a7ed72432b173f3211c0c2b4d4e10e023030428829) 9); (mkNode (h32 0x720c52d0a1382db2c1c8d60502578d5497139182e5b52988ca96a2e2cb5ed81b) (h32 0x9594a5a6bf52685e0fbfbc9b10d02baa4525837fe7774cbe86ab5b96dd15ee0d) 9); (mkNode (h32 0x59a07d6de141c8de3c5ac71197eba1b9a6de322e3b0f9762351108fa121a5917) (h32 0x363041ad41f0ee8819046ee2bf2af41bc94cd17bc7ba6ca712cc562d90460d19) 6)])), (Some (mkPath (h32 0x18e44caa78a914087fb81e8b2f92a312f29b10a94e857b3382ba000aac3b050f) (Some (mkNode (h32 0xbf4245864783af356463b2c5af200bb87bc64171dd99a8ac0acc67bfa408f600) (h32 0xebbde6853f0d7fd5c795a751c763ee866f603ddd45a59a14ad1189f04105c506) 4)) [(mkNode (h32 0xf43f6817ec5d6bb0e0b42c4ba5264bb99096cfe99ece2ea7b15acc4e564d322d) (h32 0xf4d5d6e3ae2e36f7a099a2a7ed72432b173f3211c0c2b4d4e10e023030428829) 9); (mkNode (h32 0xa75741eac4c581fb3eec3358254af17c0014077e86cb926f448f3607a48ee40d) (h32 0x9594a5a6bf52685e0fbfbc9b10d02baa4525837fe7774cbe86ab5b96dd15ee0d) 9); (mkNode (h32 0x1a2d6c63254ba1b0e860c99dedf9a3a1038e7dc589fd9a92b5d2eff7cd609c2a) (h32 0x363041ad41f0ee8819046ee2bf2af41bc94cd17bc7ba6ca712cc562d90460d19) 8); (mkNode (h32 0x345706989a0657a16b5c14414657b429c857f9cc0ce0be40174c12c214a9061e) (h32 0x59a07d6de141c8de3c5ac71197eba1b9a6de322e3b0f9762351108fa121a5917) 6)])))
    None (Some (h32 0xebbde6853f0d7fd5c795a751c763ee866f603ddd45a59a14ad1189f04105c506)) (Some ((Some (mkStateData (h32 0x0000000000000000000000000000000000000000000000000000000000000003) (h32 0x0000000000000000000000000000000000000000000000000000000000000000))), (Some (mkStateData (h32 0x0000000000000000000000000000000000000000000000000000000000000003) (h32 0x0000000000000000000000000000000000000000000000000000000000000133)))))).
(* src/traces/empty_storage_type_2_update_a.json *)
Definition real_empty_storage_type_2_update_a : SMTTrace :=
  (mkTrace (h20 0x0101010101010101010101010101010101010101) (h32 0x2368fc91ec42cf498e51d1796cfcacf1efb26920e114962fb9c4763b1080341d)
    ((mkPath (h32 0xb696019bc06c70a975c602aa0d7a1fa25c04e18cf48d7b4ead1ad980481d6616) (Some (mkNode (h32 0xd472374b1135b67ffc1d5414460fe3b4efaf31ce9ae4c83d1364ba87a9472a2c) (h32 0x2368fc91ec42cf498e51d1796cfcacf1efb26920e114962fb9c4763b1080341d) 4)) [(mkNode (h32 0xa8ba04fc659bc821c6dbc1f6775dcb9e83dd215a1943c6a6c5375bdb65498b24) (h32 0xa66d39d51412f50d7df0c6388c765c74b023a3e5d9eba9cbc80b6ef17f76ab1e) 9); (mkNode (h32 0x339130a89388cf0ced2bb4f9b4e5073930e4121e16ee46e301acfcce18a3220d) (h32 0xf485d05d32be22082faed55e8c38826fec4a8250f41ce4639d51fb249c322127) 9); (mkNode (h32 0x1488ae111aac349974efc97e73fc7415540a43249af5155997dbb0c2f22fc201) (h32 0xebb8b01466f6764df4b8b2a3d180b849b9616c536c0a4b6f107e3b10a739761e) 6)]), (mkPath (h32 0x3630c1fc10b0712ce42a7ea80aab96f959c0ee18f1357a68c04f244f3f45a224) (Some (mkNode (h32 0xc68c138b7bf413375e49b21e3d86eec221d4ad5261d15298889d29cab28d6814) (h32 0x2368fc91ec42cf498e51d1796cfcacf1efb26920e114962fb9c4763b1080341d) 4)) [(mkNode (h32 0x570ae52fb01033d690c7265832c37c1177c68deec178ed9d1b33fc2379a42b08) (h32 0xa66d39d51412f50d7df0c6388c765c74b023a3e5d9eba9cbc80b6ef17f76ab1e) 9); (mkNode (h32 0x0c6f6cc1ebc4a74e6c249d6c84de7f775f2f6ddc429dffd7c4d972bf81f6d310) (h32 0xf485d05d32be22082faed55e8c38826fec4a8250f41ce4639d51fb249c322127) 9); (mkNode (h32 0xd87b24034564326cbaaf90ed5b2a85cf6db067aeb538a6ead52e91ee238db129) (h32 0xebb8b01466f6764df4b8b2a3d180b849b9616c536c0a4b6f107e3b10a739761e) 6)]))
    ((Some (mkAccountData 0 0x1 0x0000000000000000000000000000000000000000000000000000000000000000 0x0000000000000000000000000000000000000000000000000000000000000000 0)), (Some (mkAccountData 0 0x1 0x0000000000000000000000000000000000000000000000000000000000000000 0x0000000000000000000000000000000000000000000000000000000000000000 0)))
    ((Some (mkPath (h32 0x9f8447ba78ad7e1c7566d9242c8c6d77f02dfe081717cb0a1fe024485735290e) None [(mkNode (h32 0x233ebad9cd643db2577e9a70c76a24705fc5e4f3b450c3bdcab4b7162a1e7012) (h32 0xf4d5d6e3ae2e36f7a099a2a7ed72432b173f3211c0c2b4d4e10e023030428829) 9); (mkNode (h32 0x9594a5a6bf52685e0fbfbc9b10d02baa4525837fe7774cbe86ab5b96dd15ee0d) (h32 0x720c52d0a1382db2c1c8d60502578d5497139182e5b52988ca96a2e2cb5ed81b) 9); (mkNode (h32 0xf5ddf83d9e16d65c3bacd2e8093581d7c5da48dd8cf2ea7b3d07b15adbe2d525) (h32 0x1159be0b5a22d4285fa446314948200958a5752517fbd165e9151c1ca978e601) 9); (mkNode (h32 0x0000000000000000000000000000000000000000000000000000000000000000) (h32 0xb708b9dd7dd910bd3aff840e6b5c57b3a539aa8177c0403d56a252bfced52a2a) 7)])), (Some (mkPath (h32 0x39c51c95828f752fff0a45a4aad485e8ce3a67bb690d4813d55f5d586b943d28) (Some (mkNode (h32 0xbf4245864783af356463b2c5af200bb87bc64171dd99a8ac0acc67bfa408f600) (h32 0xd15631dde47d33a3a51eba7eae19cd91bcfa31af04f9f862dc086ab1f757761c) 4)) [(mkNode (h32 0x3107aa2b137a3ecee6225245b59c4efbaea3c269a69b50a89d18ac96636a081a) (h32 0xf4d5d6e3ae2e36f7a099a2a7ed72432b173f3211c0c2b4d4e10e023030428829) 9); (mkNode (h32 0x4d6e294449fadb158d2cfa7c6409412bc0f82123f9115eb4044a2c3b83d8f513) (h32 0x720c52d0a1382db2c1c8d60502578d5497139182e5b52988ca96a2e2cb5ed81b) 9); (mkNode (h32 0xafe665ce22fd76a2a0fd4e190d1f7081128e23eced889a7214c87b536c790501) (h32 0x1159be0b5a22d4285fa446314948200958a5752517fbd165e9151c1ca978e601) 9); (mkNode (h32 0xf8eee5c40ebcb807d2820ca1b70b44a83fe1c0afd5fcd56c8a589aa248d75203) (h32 0xb708b9dd7dd910bd3aff840e6b5c57b3a539aa8177c0403d56a252bfced52a2a) 7)])))
    None (Some (h32 0xd15631dde47d33a3a51eba7eae19cd91bcfa31af04f9f862dc086ab1f757761c)) (Some ((Some (mkStateData (h32 0x00000000000000000000000000000000000000000000000000000000000001f6) (h32 0x0000000000000000000000000000000000000000000000000000000000000000))), (Some (mkStateData (h32 0x00000000000000000000000000000000000000000000000000000000000001f6) (h32 0x0000000000000000000000000000000000000000000000000000000000000133)))))).
(* src/traces/empty_storage_type_2_update_b.json *)
Definition real_empty_storage_type_2_update_b : SMTTrace :=
  (mkTrace (h20 0x0101010101010101010101010101010101010101) (h32 0x2368fc91ec42cf498e51d1796cfcacf1efb26920e114962fb9c4763b1080341d)
    ((mkPath (h32 0xb696019bc06c70a975c602aa0d7a1fa25c04e18cf48d7b4ead1ad980481d6616) (Some (mkNode (h32 0xd472374b1135b67ffc1d5414460fe3b4efaf31ce9ae4c83d1364ba87a9472a2c) (h32 0x2368fc91ec42cf498e51d1796cfcacf1efb26920e114962fb9c4763b1080341d) 4)) [(mkNode (h32 0xa8ba04fc659bc821c6dbc1f6775dcb9e83dd215a1943c6a6c5375bdb65498b24) (h32 0xa66d39d51412f50d7df0c6388c765c74b023a3e5d9eba9cbc80b6ef17f76ab1e) 9); (mkNode (h32 0x339130a89388cf0ced2bb4f9b4e5073930e4121e16ee46e301acfcce18a3220d) (h32 0xf485d05d32be22082faed55e8c38826fec4a8250f41ce4639d51fb249c322127) 9); (mkNode (h32 0x1488ae111aac349974efc97e73fc7415540a43249af5155997dbb0c2f22fc201) (h32 0xebb8b01466f6764df4b8b2a3d180b849b9616c536c0a4b6f107e3b10a739761e) 6)]), (mkPath (h32 0x1c8ed14e3acc3c48ac2ff30de56516f9f779c04b09baa957e2b3bf474e5c6811) (Some (mkNode (h32 0xb4b44f01c466db3685bd0e5e016bcb45be5da612c252362aee0ea129716b6114) (h32 0x2368fc91ec42cf498e51d1796cfcacf1efb26920e114962fb9c4763b1080341d) 4)) [(mkNode (h32 0x68b506f7859b358437662e04b491a9dcf0beeb3c64a795ac5348fa6e04a7fb0e) (h32 0xa66d39d51412f50d7df0c6388c765c74b023a3e5d9eba9cbc80b6ef17f76ab1e) 9); (mkNode (h32 0x9bbd3ec8ba0ee44923298615dc1355313b99ece5cf10354856af33ab4fc69c1b) (h32 0xf485d05d32be22082faed55e8c38826fec4a8250f41ce4639d51fb249c322127) 9); (mkNode (h32 0x65e0c483d7a3f4c7e2d92cc2fb95538712cf5ae8d71973e40b5449f93f8ef308) (h32 0xebb8b01466f6764df4b8b2a3d180b849b9616c536c0a4b6f107e3b10a739761e) 6)]))
    ((Some (mkAccountData 0 0x1 0x0000000000000000000000000000000000000000000000000000000000000000 0x0000000000000000000000000000000000000000000000000000000000000000 0)), (Some (mkAccountData 0 0x1 0x0000000000000000000000000000000000000000000000000000000000000000 0x0000000000000000000000000000000000000000000000000000000000000000 0)))
    ((Some (mkPath (h32 0x9f8447ba78ad7e1c7566d9242c8c6d77f02dfe081717cb0a1fe024485735290e) None [(mkNode (h32 0x233ebad9cd643db2577e9a70c76a24705fc5e4f3b450c3bdcab4b7162a1e7012) (h32 0xf4d5d6e3ae2e36f7a099a2a7ed72432b173f3211c0c2b4d4e10e023030428829) 9); (mkNode (h32 0x9594a5a6bf52685e0fbfbc9b10d02baa4525837fe7774cbe86ab5b96dd15ee0d) (h32 0x720c52d0a1382db2c1c8d60502578d5497139182e5b52988ca96a2e2cb5ed81b) 9); (mkNode (h32 0x1159be0b5a22d4285fa446314948200958a5752517fbd165e9151c1ca978e601) (h32 0xf5ddf83d9e16d65c3bacd2e8093581d7c5da48dd8cf2ea7b3d07b15adbe2d525) 9); (mkNode (h32 0x0000000000000000000000000000000000000000000000000000000000000000) (h32 0xa1e945602598269f8a2a639969f2abda2ad190337d489adda7ebb16c5693d021) 8)])), (Some (mkPath (h32 0x5bd19d96b0c37ac7ef57c429eb02bc447ddecd013b6005c41878b5c9e8a7f90a) (Some (mkNode (h32 0xbf4245864783af356463b2c5af200bb87bc64171dd99a8ac0acc67bfa408f600) (h32 0xdd5604412ca6840ca95fa06554b3d78df7b5ce751c48259a50e1d781a6b53613) 4)) [(mkNode (h32 0xe927005f5f8a8edf6f9b5ccff22a0cb9ddcf1841ec28f26baa1179296d4e1218) (h32 0xf4d5d6e3ae2e36f7a099a2a7ed72432b173f3211c0c2b4d4e10e023030428829) 9); (mkNode (h32 0x05f4fe08f426f5cd4cd9ecc8d1ff49efdd504b4df47b5f91e27166781a63270b) (h32 0x720c52d0a1382db2c1c8d60502578d5497139182e5b52988ca96a2e2cb5ed81b) 9); (mkNode (h32 0xb1ed8e1e50666bf29208dc9570e01759ee24b9b02db70bd842ed687c0dfe0800) (h32 0xf5ddf83d9e16d65c3bacd2e8093581d7c5da48dd8cf2ea7b3d07b15adbe2d525) 9); (mkNode (h32 0x6bc2da984016a256af4256511fa2ff0a47b2c96f45ddebe33689270212c5c218) (h32 0xa1e945602598269f8a2a639969f2abda2ad190337d489adda7ebb16c5693d021) 8)])))
    None (Some (h32 0xdd5604412ca6840ca95fa06554b3d78df7b5ce751c48259a50e1d781a6b53613)) (Some ((Some (mkStateData (h32 0x00000000000000000000000000000000000000000000000000000000000001f4) (h32 0x0000000000000000000000000000000000000000000000000000000000000000))), (Some (mkStateData (h32 0x00000000000000000000000000000000000000000000000000000000000001f4) (h32 0x0000000000000000000000000000000000000000000000000000000000000133)))))).
(* src/traces/existing_account_balance_update.json *)
Definition real_existing_account_balance_update : SMTTrace :=
  (mkTrace (h20 0x0202020202020202020202020202020202020202) (h32 0xff2cc690b31f32da9f69ee898d38396be2b418bcd781e2f504c823a9e3b5990c)
    ((mkPath (h32 0xb3e9ff02c109b1d6aefa774523aaf5bef1207226e85a3726ecb505227ad1e621) (Some (mkNode (h32 0xd5183cce27ff45da94689d72d862770b5d6ff7315de77ef74d4e4318ac14ea11) (h32 0xff2cc690b31f32da9f69ee898d38396be2b418bcd781e2f504c823a9e3b5990c) 4)) [(mkNode (h32 0x4c132495916e6529f791ad1d6977c5b9cf8720a58a7f196ea6fae35dffd80c15) (h32 0xa66d39d51412f50d7df0c6388c765c74b023a3e5d9eba9cbc80b6ef17f76ab1e) 9); (mkNode (h32 0xea63c2cf7aaed65918936ba7b61df455d10abed099b690d5b14825ed27aa7e1a) (h32 0xf485d05d32be22082faed55e8c38826fec4a8250f41ce4639d51fb249c322127) 9); (mkNode (h32 0xebb8b01466f6764df4b8b2a3d180b849b9616c536c0a4b6f107e3b10a739761e) (h32 0x0f83a2e43aa2c5994001f58a94b99b65f39449455e291766d20feca59209cd08) 6)]), (mkPath (h32 0xc5249c83fd415dfaefc8a571baf809928ee9cf3a83db725e67b5efab2c849e2a) (Some (mkNode (h32 0x7aaaf309a30602bd2cada44848a5345527cddb78d8ebcbf95bd03e56a9cec528) (h32 0xff2cc690b31f32da9f69ee898d38396be2b418bcd781e2f504c823a9e3b5990c) 4)) [(mkNode (h32 0x3deb29f5a72c623e0562111611ded2c719fadb6710fe5aa8405f9b9c3c201b0c) (h32 0xa66d39d51412f50d7df0c6388c765c74b023a3e5d9eba9cbc80b6ef17f76ab1e) 9); (mkNode (h32 0x8da46c9ad5d617b5758c054ac32064f074016de279fe6dc676c1216c5ebd792f) (h32 0xf485d05d32be22082faed55e8c38826fec4a8250f41ce4639d51fb249c322127) 9); (mkNode (h32 0xc194e5ef0982a25bbcd4932093d59d9f775b68f5fc904c8120096edc877b4628) (h32 0x0f83a2e43aa2c5994001f58a94b99b65f39449455e291766d20feca59209cd08) 6)]))
    ((Some (mkAccountData 0 0x1 0x0000000000000000000000000000000000000000000000000000000000000000 0x0000000000000000000000000000000000000000000000000000000000000000 0)), (Some (mkAccountData 0 0x12ca34 0x0000000000000000000000000000000000000000000000000000000000000000 0x0000000000000000000000000000000000000000000000000000000000000000 0)))
    (None, None)
    (Some (h32 0x0000000000000000000000000000000000000000000000000000000000000000)) None None).
(* src/traces/existing_account_code_size_update.json *)
Definition real_existing_account_code_size_update : SMTTrace :=
  (mkTrace (h20 0x0404040404040404040404040404040404040404) (h32 0xbc47183529351c0a1de1339bd11c9fcbe706bebe4cfeb512b5eca9b808773c22)
    ((mkPath (h32 0xb3e9ff02c109b1d6aefa774523aaf5bef1207226e85a3726ecb505227ad1e621) (Some (mkNode (h32 0xd5183cce27ff45da94689d72d862770b5d6ff7315de77ef74d4e4318ac14ea11) (h32 0xbc47183529351c0a1de1339bd11c9fcbe706bebe4cfeb512b5eca9b808773c22) 4)) [(mkNode (h32 0xa66d39d51412f50d7df0c6388c765c74b023a3e5d9eba9cbc80b6ef17f76ab1e) (h32 0x4c132495916e6529f791ad1d6977c5b9cf8720a58a7f196ea6fae35dffd80c15) 9); (mkNode (h32 0x0893ab6eb7dfbe3908cf199964e5a8eaa42673fee2dc4cdfdff46a037e100a08) (h32 0x03703ecd3a382e78f6dd10259d232f45e22b592e2c91c091f3333ba8fc8ddb0a) 9); (mkNode (h32 0x390dad90d28a127e8aba1a8a2872e68ac9acadfbf28476766e5fed56c347630f) (h32 0xd93a8533b78805da6242290964713fcf98fe162788121fb006d6e32154a0ac03) 7); (mkNode (h32 0xa06587340be88ba91a07068e100cf3ac1c383de6f9e6cc023e1a550bc307830d) (h32 0x0000000000000000000000000000000000000000000000000000000000000000) 7); (mkNode (h32 0x0dbed2de655bdf31c59616230ccbdacf461df536443ebadaf86f8a63674eab0a) (h32 0x093476b5531dce3519bf3ebdb7c1762bda68f633fcb2e00a6cd194d46089ac10) 6)]), (mkPath (h32 0x59970f087910aad2307a0cceff2c361e1f428d51b5858feb07c79925e3359309) (Some (mkNode (h32 0xec307bc289a81964a2f2d79a685ba399033aa5f82961d56193495ef23328d304) (h32 0xbc47183529351c0a1de1339bd11c9fcbe706bebe4cfeb512b5eca9b808773c22) 4)) [(mkNode (h32 0xb6d1d64697db79093624bbc8f8f45b87b1fe4184384da5abefea6565336c442a) (h32 0x4c132495916e6529f791ad1d6977c5b9cf8720a58a7f196ea6fae35dffd80c15) 9); (mkNode (h32 0xd3aecf7a427b062cf302a546baa9931fe2397ba1cf5ca11428731fd07342c42c) (h32 0x03703ecd3a382e78f6dd10259d232f45e22b592e2c91c091f3333ba8fc8ddb0a) 9); (mkNode (h32 0x28692d96e940426fe7915ee2361288e6d9b07d773aa481b9f109fbf869279828) (h32 0xd93a8533b78805da6242290964713fcf98fe162788121fb006d6e32154a0ac03) 7); (mkNode (h32 0x52c04e22a6f7e8dac86166c6e2cb9177e5b0f45961ff441cde732bf1bf63f022) (h32 0x0000000000000000000000000000000000000000000000000000000000000000) 7); (mkNode (h32 0x57475c61be34bcba6a5a4e68674b5394dd679c9f398b7706b0bb9ee42e39bf10) (h32 0x093476b5531dce3519bf3ebdb7c1762bda68f633fcb2e00a6cd194d46089ac10) 6)]))
    ((Some (mkAccountData 0 0x1 0x0000000000000000000000000000000000000000000000000000000000000000 0x0000000000000000000000000000000000000000000000000000000000000000 0)), (Some (mkAccountData 0 0x1 0x0000000000000000000000000000000000000000000000000000000000000000 0x0000000000000000000000000000000000000000000000000000000000000000 2342114)))
    (None, None)
    (Some (h32 0x0000000000000000000000000000000000000000000000000000000000000000)) None None).
(* src/traces/existing_account_keccak_codehash_update.json *)
Definition real_existing_account_keccak_codehash_update : SMTTrace :=
  (mkTrace (h20 0x0808080808080808080808080808080808080808) (h32 0x2cb1dd51e4f0830f4eb3e0af2736d327ccc7e7b9ddf6e5846edaf7b2c3fc562b)
    ((mkPath (h32 0xb3e9ff02c109b1d6aefa774523aaf5bef1207226e85a3726ecb505227ad1e621) (Some (mkNode (h32 0xd5183cce27ff45da94689d72d862770b5d6ff7315de77ef74d4e4318ac14ea11) (h32 0x2cb1dd51e4f0830f4eb3e0af2736d327ccc7e7b9ddf6e5846edaf7b2c3fc562b) 4)) [(mkNode (h32 0xa66d39d51412f50d7df0c6388c765c74b023a3e5d9eba9cbc80b6ef17f76ab1e) (h32 0x4c132495916e6529f791ad1d6977c5b9cf8720a58a7f196ea6fae35dffd80c15) 9); (mkNode (h32 0x0893ab6eb7dfbe3908cf199964e5a8eaa42673fee2dc4cdfdff46a037e100a08) (h32 0x03703ecd3a382e78f6dd10259d232f45e22b592e2c91c091f3333ba8fc8ddb0a) 9); (mkNode (h32 0x390dad90d28a127e8aba1a8a2872e68ac9acadfbf28476766e5fed56c347630f) (h32 0xd93a8533b78805da6242290964713fcf98fe162788121fb006d6e32154a0ac03) 7); (mkNode (h32 0xa06587340be88ba91a07068e100cf3ac1c383de6f9e6cc023e1a550bc307830d) (h32 0x0000000000000000000000000000000000000000000000000000000000000000) 7); (mkNode (h32 0x093476b5531dce3519bf3ebdb7c1762bda68f633fcb2e00a6cd194d46089ac10) (h32 0x0dbed2de655bdf31c59616230ccbdacf461df536443ebadaf86f8a63674eab0a) 6)]), (mkPath (h32 0x29e91efebc15b63fa13956706543e5cc443a7a54eb3b489d9845657006afcc25) (Some (mkNode (h32 0x48eb1308ad440c0f152d9c303487acee533938575d0bfaad7f19665710945524) (h32 0x2cb1dd51e4f0830f4eb3e0af2736d327ccc7e7b9ddf6e5846edaf7b2c3fc562b) 4)) [(mkNode (h32 0x69b44562239ca7306beb63b85f11b12deff1c7e088036549060fbf71bc53f103) (h32 0x4c132495916e6529f791ad1d6977c5b9cf8720a58a7f196ea6fae35dffd80c15) 9); (mkNode (h32 0x3a95af4f7bcce738f70687b9151ac7c65e6d3a41de3a5d93c5213147006d7617) (h32 0x03703ecd3a382e78f6dd10259d232f45e22b592e2c91c091f3333ba8fc8ddb0a) 9); (mkNode (h32 0x8835cfdc1a294c6920b01f2dc221ee51108826720ef974783af3002c352d7a08) (h32 0xd93a8533b78805da6242290964713fcf98fe162788121fb006d6e32154a0ac03) 7); (mkNode (h32 0x33ba3a0d40f242c9d2a6886f291338ef264780b18a4cbf4901ac92e703489f2a) (h32 0x0000000000000000000000000000000000000000000000000000000000000000) 7); (mkNode (h32 0xd65eeb1d659d450396ecc402bbd099d3b43b6d294a4e390d5edd0cf874029517) (h32 0x0dbed2de655bdf31c59616230ccbdacf461df536443ebadaf86f8a63674eab0a) 6)]))
    ((Some (mkAccountData 0 0x1 0x0000000000000000000000000000000000000000000000000000000000000000 0x0000000000000000000000000000000000000000000000000000000000000000 0)), (Some (mkAccountData 0 0x1 0x000000000000022b00000000000001bcffffffffffffffff0000000000000457 0x0000000000000000000000000000000000000000000000000000000000000000 0)))
    (None, None)
    (Some (h32 0x0000000000000000000000000000000000000000000000000000000000000000)) None None).
(* src/traces/existing_account_nonce_update.json *)
Definition real_existing_account_nonce_update : SMTTrace :=
  (mkTrace (h20 0x0404040404040404040404040404040404040404) (h32 0xbc47183529351c0a1de1339bd11c9fcbe706bebe4cfeb512b5eca9b808773c22)
    ((mkPath (h32 0xb3e9ff02c109b1d6aefa774523aaf5bef1207226e85a3726ecb505227ad1e621) (Some (mkNode (h32 0xd5183cce27ff45da94689d72d862770b5d6ff7315de77ef74d4e4318ac14ea11) (h32 0xbc47183529351c0a1de1339bd11c9fcbe706bebe4cfeb512b5eca9b808773c22) 4)) [(mkNode (h32 0xa66d39d51412f50d7df0c6388c765c74b023a3e5d9eba9cbc80b6ef17f76ab1e) (h32 0x4c132495916e6529f791ad1d6977c5b9cf8720a58a7f196ea6fae35dffd80c15) 9); (mkNode (h32 0x0893ab6eb7dfbe3908cf199964e5a8eaa42673fee2dc4cdfdff46a037e100a08) (h32 0x03703ecd3a382e78f6dd10259d232f45e22b592e2c91c091f3333ba8fc8ddb0a) 9); (mkNode (h32 0x390dad90d28a127e8aba1a8a2872e68ac9acadfbf28476766e5fed56c347630f) (h32 0xd93a8533b78805da6242290964713fcf98fe162788121fb006d6e32154a0ac03) 7); (mkNode (h32 0xa06587340be88ba91a07068e100cf3ac1c383de6f9e6cc023e1a550bc307830d) (h32 0x0000000000000000000000000000000000000000000000000000000000000000) 7); (mkNode (h32 0x0dbed2de655bdf31c59616230ccbdacf461df536443ebadaf86f8a63674eab0a) (h32 0x093476b5531dce3519bf3ebdb7c1762bda68f633fcb2e00a6cd194d46089ac10) 6)]), (mkPath (h32 0xd853b927733f79dff7da6cd8a8ca01438816ec82d4946a8dcb5e35381ff58e0f) (Some (mkNode (h32 0x02d35c0011d4d648ad35580cdc6cc18beb8b4a6997cda5a113973270c5786703) (h32 0xbc47183529351c0a1de1339bd11c9fcbe706bebe4cfeb512b5eca9b808773c22) 4)) [(mkNode (h32 0x5e4316d009eee2ba1658d79287e4d488f5a2c10bc4305baeb84a80f6ebbfed26) (h32 0x4c132495916e6529f791ad1d6977c5b9cf8720a58a7f196ea6fae35dffd80c15) 9); (mkNode (h32 0xb19bdb62174b1da0ea350e2f16a1dbe2e565f20773a3bf627d1963e2a4ac3b0b) (h32 0x03703ecd3a382e78f6dd10259d232f45e22b592e2c91c091f3333ba8fc8ddb0a) 9); (mkNode (h32 0x412ef57db973ff43688939fcc76a85a8d48b03e660f87e983073f1055ea1d62b) (h32 0xd93a8533b78805da6242290964713fcf98fe162788121fb006d6e32154a0ac03) 7); (mkNode (h32 0xa7441f0351f136dd9081d1692652bd06f2e754f658ecb21c58b5113101fd9105) (h32 0x0000000000000000000000000000000000000000000000000000000000000000) 7); (mkNode (h32 0xfee2f1b4ab0139a1443e94ea71e260146a7a09e3f003a6cbe2f7197b1ecf430f) (h32 0x093476b5531dce3519bf3ebdb7c1762bda68f633fcb2e00a6cd194d46089ac10) 6)]))
    ((Some (mkAccountData 0 0x1 0x0000000000000000000000000000000000000000000000000000000000000000 0x0000000000000000000000000000000000000000000000000000000000000000 0)), (Some (mkAccountData 1 0x1 0x0000000000000000000000000000000000000000000000000000000000000000 0x0000000000000000000000000000000000000000000000000000000000000000 0)))
    (None, None)
    (Some (h32 0x0000000000000000000000000000000000000000000000000000000000000000)) None None).
(* src/traces/existing_account_poseidon_codehash_update.json *)
Definition real_existing_account_poseidon_codehash_update : SMTTrace :=
  (mkTrace (h20 0x0404040404040404040404040404040404040404) (h32 0xbc47183529351c0a1de1339bd11c9fcbe706bebe4cfeb512b5eca9b808773c22)
    ((mkPath (h32 0xb3e9ff02c109b1d6aefa774523aaf5bef1207226e85a3726ecb505227ad1e621) (Some (mkNode (h32 0xd5183cce27ff45da94689d72d862770b5d6ff7315de77ef74d4e4318ac14ea11) (h32 0xbc47183529351c0a1de1339bd11c9fcbe706bebe4cfeb512b5eca9b808773c22) 4)) [(mkNode (h32 0xa66d39d51412f50d7df0c6388c765c74b023a3e5d9eba9cbc80b6ef17f76ab1e) (h32 0x4c132495916e6529f791ad1d6977c5b9cf8720a58a7f196ea6fae35dffd80c15) 9); (mkNode (h32 0x0893ab6eb7dfbe3908cf199964e5a8eaa42673fee2dc4cdfdff46a037e100a08) (h32 0x03703ecd3a382e78f6dd10259d232f45e22b592e2c91c091f3333ba8fc8ddb0a) 9); (mkNode (h32 0x390dad90d28a127e8aba1a8a2872e68ac9acadfbf28476766e5fed56c347630f) (h32 0xd93a8533b78805da6242290964713fcf98fe162788121fb006d6e32154a0ac03) 7); (mkNode (h32 0xa06587340be88ba91a07068e100cf3ac1c383de6f9e6cc023e1a550bc307830d) (h32 0x0000000000000000000000000000000000000000000000000000000000000000) 7); (mkNode (h32 0x0dbed2de655bdf31c59616230ccbdacf461df536443ebadaf86f8a63674eab0a) (h32 0x093476b5531dce3519bf3ebdb7c1762bda68f633fcb2e00a6cd194d46089ac10) 6)]), (mkPath (h32 0x9837669f15bfc8788c34b17f6dae98b06cd6c66c9c461972a2a7d23ff174a32d) (Some (mkNode (h32 0x5b49cbbb725f686b759f6308ee12d00f79a9ed37ecdb98583993e078b6ace81f) (h32 0xbc47183529351c0a1de1339bd11c9fcbe706bebe4cfeb512b5eca9b808773c22) 4)) [(mkNode (h32 0xa2ccb54215fa910bb941a125e5d46572d673a70fb7527c2b025a4c28625db20d) (h32 0x4c132495916e6529f791ad1d6977c5b9cf8720a58a7f196ea6fae35dffd80c15) 9); (mkNode (h32 0xb5607215723498d84c61ab2c2d96c2f36964d4b9c8024e06ead9c1224c830c13) (h32 0x03703ecd3a382e78f6dd10259d232f45e22b592e2c91c091f3333ba8fc8ddb0a) 9); (mkNode (h32 0xd9d2a893b4f46b0c585d5aac5922e5d39f0280cd38906c117204aeda12fc3500) (h32 0xd93a8533b78805da6242290964713fcf98fe162788121fb006d6e32154a0ac03) 7); (mkNode (h32 0x2c26a037cd5bfe48555e868cb30c380e4e1ac61a92789c9e1623f6d1b798571e) (h32 0x0000000000000000000000000000000000000000000000000000000000000000) 7); (mkNode (h32 0xc7f3df61b5713c3de0e278bdc412da2b9b34f6da9f182ff8694305178ae30b2b) (h32 0x093476b5531dce3519bf3ebdb7c1762bda68f633fcb2e00a6cd194d46089ac10) 6)]))
    ((Some (mkAccountData 0 0x1 0x0000000000000000000000000000000000000000000000000000000000000000 0x0000000000000000000000000000000000000000000000000000000000000000 0)), (Some (mkAccountData 0 0x1 0x0000000000000000000000000000000000000000000000000000000000000000 0x0000000000000926ffffffffffffffffffffffffffffffffffffffffffffffff 0)))
    (None, None)
    (Some (h32 0x0000000000000000000000000000000000000000000000000000000000000000)) None None).
(* src/traces/existing_storage_update.json *)
Definition real_existing_storage_update : SMTTrace :=
  (mkTrace (h20 0x0101010101010101010101010101010101010101) (h32 0x2368fc91ec42cf498e51d1796cfcacf1efb26920e114962fb9c4763b1080341d)
    ((mkPath (h32 0xb696019bc06c70a975c602aa0d7a1fa25c04e18cf48d7b4ead1ad980481d6616) (Some (mkNode (h32 0xd472374b1135b67ffc1d5414460fe3b4efaf31ce9ae4c83d1364ba87a9472a2c) (h32 0x2368fc91ec42cf498e51d1796cfcacf1efb26920e114962fb9c4763b1080341d) 4)) [(mkNode (h32 0xa8ba04fc659bc821c6dbc1f6775dcb9e83dd215a1943c6a6c5375bdb65498b24) (h32 0xa66d39d51412f50d7df0c6388c765c74b023a3e5d9eba9cbc80b6ef17f76ab1e) 9); (mkNode (h32 0x339130a89388cf0ced2bb4f9b4e5073930e4121e16ee46e301acfcce18a3220d) (h32 0xf485d05d32be22082faed55e8c38826fec4a8250f41ce4639d51fb249c322127) 9); (mkNode (h32 0x1488ae111aac349974efc97e73fc7415540a43249af5155997dbb0c2f22fc201) (h32 0xebb8b01466f6764df4b8b2a3d180b849b9616c536c0a4b6f107e3b10a739761e) 6)]), (mkPath (h32 0xda976f8a96f934ef95039a0af321cae53b2c03d073da9938d5d6365e0a21b82e) (Some (mkNode (h32 0x955cc7b55a09e9141ad794466730f604e1eb4eb10a2e305d21cf4f790f44081d) (h32 0x2368fc91ec42cf498e51d1796cfcacf1efb26920e114962fb9c4763b1080341d) 4)) [(mkNode (h32 0x0b34118237386ca118c49ab4d298e36567cddf52abcc2d20807db0b4e15a8b01) (h32 0xa66d39d51412f50d7df0c6388c765c74b023a3e5d9eba9cbc80b6ef17f76ab1e) 9); (mkNode (h32 0x547b44a81aa9399d7eda944530333aa26280421fd1561a28892038d9f0d92729) (h32 0xf485d05d32be22082faed55e8c38826fec4a8250f41ce4639d51fb249c322127) 9); (mkNode (h32 0x4c8b0a27fa1c9be0857281dc06c45625551270bc835feb9614d834c4aaae2818) (h32 0xebb8b01466f6764df4b8b2a3d180b849b9616c536c0a4b6f107e3b10a739761e) 6)]))
    ((Some (mkAccountData 0 0x1 0x0000000000000000000000000000000000000000000000000000000000000000 0x0000000000000000000000000000000000000000000000000000000000000000 0)), (Some (mkAccountData 0 0x1 0x0000000000000000000000000000000000000000000000000000000000000000 0x0000000000000000000000000000000000000000000000000000000000000000 0)))
    ((Some (mkPath (h32 0x9f8447ba78ad7e1c7566d9242c8c6d77f02dfe081717cb0a1fe024485735290e) (Some (mkNode (h32 0x50ea2e5d1d10a9ebc255098ff2670e4a4faaa8018a07eb92340063dea69b0426) (h32 0xf905bf0e3f6390d89aa4bfd38ebec0cd834a15c509be9796b05c44c34405b111) 4)) [(mkNode (h32 0x233ebad9cd643db2577e9a70c76a24705fc5e4f3b450c3bdcab4b7162a1e7012) (h32 0xf4d5d6e3ae2e36f7a099a2a7ed72432b173f3211c0c2b4d4e10e023030428829) 9); (mkNode (h32 0x9594a5a6bf52685e0fbfbc9b10d02baa4525837fe7774cbe86ab5b96dd15ee0d) (h32 0x720c52d0a1382db2c1c8d60502578d5497139182e5b52988ca96a2e2cb5ed81b) 9); (mkNode (h32 0xf5ddf83d9e16d65c3bacd2e8093581d7c5da48dd8cf2ea7b3d07b15adbe2d525) (h32 0x1159be0b5a22d4285fa446314948200958a5752517fbd165e9151c1ca978e601) 9); (mkNode (h32 0xb708b9dd7dd910bd3aff840e6b5c57b3a539aa8177c0403d56a252bfced52a2a) (h32 0x0000000000000000000000000000000000000000000000000000000000000000) 7); (mkNode (h32 0xf652ffaa792e9ec458883972eb84eafd5dfd1e2c0c032605f13861bf8589991b) (h32 0x0000000000000000000000000000000000000000000000000000000000000000) 7); (mkNode (h32 0x0fbb07b28f3fcb0b1927a527c1e851e84f682fa13afd4fa4962982e45e6a6929) (h32 0x0000000000000000000000000000000000000000000000000000000000000000) 7); (mkNode (h32 0x7133ef86743d5e356ffec6fe0a58f525c6f1020f50da6a7e9219fb89dd295e0f) (h32 0x4bc93095238464e0c132200f0ae157e2c5d3a238a0820815ebc600b415aeec0e) 7); (mkNode (h32 0xafcd598e4d350231487a54da34cd5772aa222cd10465a9f481999526ffd8bc21) (h32 0x0000000000000000000000000000000000000000000000000000000000000000) 7); (mkNode (h32 0x41a74d55b4d6bb5d49bff0d8d2453c41ea5e84e19f61c1a40df0165ad5573d1b) (h32 0x0000000000000000000000000000000000000000000000000000000000000000) 7); (mkNode (h32 0x3571e57644a8d65fd0edf4109d4b3382f901d4c35b3083cd3e25e51b5a41ed1d) (h32 0x0000000000000000000000000000000000000000000000000000000000000000) 8); (mkNode (h32 0x92f695d8435132c874a2db57bf1fae04f291d1ef1e551caff5a0ca27d29bea0b) (h32 0x95c9a2c30288e0542ba69389bf846a5cbbd2fafe08ec225dff1d7e795561fc2f) 6)])), (Some (mkPath (h32 0x8a84aca5b322747318b728b19ef62de090557bc0266deb1ca595b952096a7529) (Some (mkNode (h32 0x2c5d0be0aa5628aa1d5e7886757e225bb17312ac3db0e32ce442a2ff9ce6d511) (h32 0xf905bf0e3f6390d89aa4bfd38ebec0cd834a15c509be9796b05c44c34405b111) 4)) [(mkNode (h32 0xeef45d62d450a373a79e8346c621523779eff37836a674d7fbb20e886b995d0c) (h32 0xf4d5d6e3ae2e36f7a099a2a7ed72432b173f3211c0c2b4d4e10e023030428829) 9); (mkNode (h32 0x8331db301f440968f0130600b90d215e721dd40e4a2bcd29bab4446391ce002c) (h32 0x720c52d0a1382db2c1c8d60502578d5497139182e5b52988ca96a2e2cb5ed81b) 9); (mkNode (h32 0x17a3fd05ea42fdc83104bd2bed18444cf13336a9c4bed283ef9743ea12aaa113) (h32 0x1159be0b5a22d4285fa446314948200958a5752517fbd165e9151c1ca978e601) 9); (mkNode (h32 0xa5ffb7158393c1ac82909a4c82aa22caeb8f39aa777e28ebc7b49846a706a30d) (h32 0x0000000000000000000000000000000000000000000000000000000000000000) 7); (mkNode (h32 0x2a1a9be599581240e9712da9d557d437f66efa9ae07f6392be9f54fd0115fc08) (h32 0x0000000000000000000000000000000000000000000000000000000000000000) 7); (mkNode (h32 0x62aba3d23d1e11c3407c2d3a04af70e7aac2a5c0a356909e9c8faa2c686fa913) (h32 0x0000000000000000000000000000000000000000000000000000000000000000) 7); (mkNode (h32 0x5e29eee17941093e287e545e4b01e192a4c38c3c8e9193d3d8826baf1f7e1d0b) (h32 0x4bc93095238464e0c132200f0ae157e2c5d3a238a0820815ebc600b415aeec0e) 7); (mkNode (h32 0x0244b7f852a9fc7c1e603020ccc818e3996f07404559d944421234bc85f1d509) (h32 0x0000000000000000000000000000000000000000000000000000000000000000) 7); (mkNode (h32 0x461a403d60e2ad6e9d84672fecb931dbc07ef462e59d49c930834f1fd369802a) (h32 0x0000000000000000000000000000000000000000000000000000000000000000) 7); (mkNode (h32 0x6c953a769610a414e1a279be76c757198249f0e8cb6e2957415b65085c2af403) (h32 0x0000000000000000000000000000000000000000000000000000000000000000) 8); (mkNode (h32 0x5790d950a6186fcf3513251370d06241571e78eea1279b276e17906c61816c05) (h32 0x95c9a2c30288e0542ba69389bf846a5cbbd2fafe08ec225dff1d7e795561fc2f) 6)])))
    None (Some (h32 0xf905bf0e3f6390d89aa4bfd38ebec0cd834a15c509be9796b05c44c34405b111)) (Some ((Some (mkStateData (h32 0x0000000000000000000000000000000000000000000000000000000000000028) (h32 0x0000000000000000000000000000000000000000000000000000000000000001))), (Some (mkStateData (h32 0x0000000000000000000000000000000000000000000000000000000000000028) (h32 0x0000000000000000000000000000000000000000000000000000000000000014)))))).
(* src/traces/insert_into_singleton_storage_trie.json *)
Definition real_insert_into_singleton_storage_trie : SMTTrace :=
  (mkTrace (h20 0x0101010101010101010101010101010101010101) (h32 0x2368fc91ec42cf498e51d1796cfcacf1efb26920e114962fb9c4763b1080341d)
    ((mkPath (h32 0x83b9340c6a33165701daa415c32625ff2cf62956a23fa3229182d801b4aaaf17) (Some (mkNode (h32 0xf4d0c4b8b5e226544d147596eb560ce0e34f0397d126a4b3f0f34a3ef9f74103) (h32 0x2368fc91ec42cf498e51d1796cfcacf1efb26920e114962fb9c4763b1080341d) 4)) [(mkNode (h32 0xe9d253e605a354db69343ff5f4184719df70a413ca8fe399d9a701f21f641a16) (h32 0xa66d39d51412f50d7df0c6388c765c74b023a3e5d9eba9cbc80b6ef17f76ab1e) 9); (mkNode (h32 0x41bdefdca0b4003f8528065c189004814835b182f42a6d4df873f5cd0b42ea24) (h32 0xf485d05d32be22082faed55e8c38826fec4a8250f41ce4639d51fb249c322127) 9); (mkNode (h32 0xfa899826153ef28c7baf78e37799a8d9b4b59e612bc29e44d8519de254349b0b) (h32 0xebb8b01466f6764df4b8b2a3d180b849b9616c536c0a4b6f107e3b10a739761e) 6)]), (mkPath (h32 0x5bd928092961b8afe05adf64c42fcaf762698ac9fa7a8e210b77c53c958bdd0d) (Some (mkNode (h32 0xecb1e80fe56518f7715d59f4127704ec8df5c63c4e0d7d69737ea4c4703ea917) (h32 0x2368fc91ec42cf498e51d1796cfcacf1efb26920e114962fb9c4763b1080341d) 4)) [(mkNode (h32 0x9883bd3c95e670456325da92f066458fe3b086084d53b17d20d99b4a2dd64918) (h32 0xa66d39d51412f50d7df0c6388c765c74b023a3e5d9eba9cbc80b6ef17f76ab1e) 9); (mkNode (h32 0xa4d6b9ea2ee4a2c857c98f1d6a88dcd1a750d1b1d0c12f0c2eb07bdb008bb701) (h32 0xf485d05d32be22082faed55e8c38826fec4a8250f41ce4639d51fb249c322127) 9); (mkNode (h32 0x5b3ed283b85cf3b486d003219054470d79fc2a4d76c9e640ed858405de9dd62f) (h32 0xebb8b01466f6764df4b8b2a3d180b849b9616c536c0a4b6f107e3b10a739761e) 6)]))
    ((Some (mkAccountData 0 0x1 0x0000000000000000000000000000000000000000000000000000000000000000 0x0000000000000000000000000000000000000000000000000000000000000000 0)), (Some (mkAccountData 0 0x1 0x0000000000000000000000000000000000000000000000000000000000000000 0x0000000000000000000000000000000000000000000000000000000000000000 0)))
    ((Some (mkPath (h32 0xf98272a84a0b269ca8570319baf2c68ebacb038a0e1076787aa85d547ff2cb07) (Some (mkNode (h32 0x7934cd98d51fd603e653f6b03b13edc269299a100867174016312db42eff3a2c) (h32 0x55dbbd501fc21ad03be98003051b7bd08cdae7e153eefada883227167d198002) 4)) [])), (Some (mkPath (h32 0x33aebe70c4315501e6367ceca3feb4cc404ffb710e393b1d4cfff3f553233c09) (Some (mkNode (h32 0x8564322fa664ff339902ab3e0a20582a4c65ca1bb8dfc1be45bfa48f0e43b20e) (h32 0x84d212cc2c8afac2fe17b77867a38d5b9e1308b0b8b723df2ea83728579b5a0a) 4)) [(mkNode (h32 0xe24a038e861c1be4dc33eda4c42c49e47d90532fe2e129bfc8b93504c8d0d32a) (h32 0xf98272a84a0b269ca8570319baf2c68ebacb038a0e1076787aa85d547ff2cb07) 6)])))
    None (Some (h32 0x84d212cc2c8afac2fe17b77867a38d5b9e1308b0b8b723df2ea83728579b5a0a)) (Some ((Some (mkStateData (h32 0x00000000000000500000000000000046000000000000003c0000000000000032) (h32 0x0000000000000000000000000000000000000000000000000000000000000000))), (Some (mkStateData (h32 0x00000000000000500000000000000046000000000000003c0000000000000032) (h32 0x0000000000000008000000000000000700000000000000060000000000000005)))))).
(* src/traces/createNameRegistratorPerTxsNotEnoughGas_d0_g0_v0.json *)
Definition real_creates : list (MPTProofType * SMTTrace) :=
  [ (AccountDoesNotExist, (mkTrace (h20 0x2adc25665018aa1fe0e6bc666dac8fc2697ff9ba) (h32 0x0c2b7a2233683ca3fdf4cb670d06fffdeb11ad0592b1e7cad87e3e3cc7bcf805)
    ((mkPath (h32 0x252e31fcfd8f15f35cf1db8a250dc2f9920414047047f8263f509b2ec9d7dd03) (Some (mkNode (h32 0x0fd348b83e56090b7525967291ba6ae3c06f43cb926a41018b279747d702d329) (h32 0x44ef89daadd3a70d440f9af05579a1f73d2d9407710c524f21903ee56f3f3f1a) 4)) []), (mkPath (h32 0x252e31fcfd8f15f35cf1db8a250dc2f9920414047047f8263f509b2ec9d7dd03) (Some (mkNode (h32 0x0fd348b83e56090b7525967291ba6ae3c06f43cb926a41018b279747d702d329) (h32 0x44ef89daadd3a70d440f9af05579a1f73d2d9407710c524f21903ee56f3f3f1a) 4)) []))
    (None, None)
    (None, None)
    (Some (h32 0x0000000000000000000000000000000000000000000000000000000000000000)) None None))
  ; (NonceChanged, (mkTrace (h20 0x6295ee1b4f6dd65047762f924ecd367c17eabf8f) (h32 0x293ccdc4280a75784fbdf8c7ae69b76e0852a88b140a7f330f49783d1347f626)
    ((mkPath (h32 0x252e31fcfd8f15f35cf1db8a250dc2f9920414047047f8263f509b2ec9d7dd03) (Some (mkNode (h32 0x0fd348b83e56090b7525967291ba6ae3c06f43cb926a41018b279747d702d329) (h32 0x44ef89daadd3a70d440f9af05579a1f73d2d9407710c524f21903ee56f3f3f1a) 4)) []), (mkPath (h32 0x252e31fcfd8f15f35cf1db8a250dc2f9920414047047f8263f509b2ec9d7dd03) (Some (mkNode (h32 0x0fd348b83e56090b7525967291ba6ae3c06f43cb926a41018b279747d702d329) (h32 0x44ef89daadd3a70d440f9af05579a1f73d2d9407710c524f21903ee56f3f3f1a) 4)) []))
    (None, None)
    (None, None)
    (Some (h32 0x0000000000000000000000000000000000000000000000000000000000000000)) None None))
  ; (BalanceChanged, (mkTrace (h20 0x6295ee1b4f6dd65047762f924ecd367c17eabf8f) (h32 0x293ccdc4280a75784fbdf8c7ae69b76e0852a88b140a7f330f49783d1347f626)
    ((mkPath (h32 0x252e31fcfd8f15f35cf1db8a250dc2f9920414047047f8263f509b2ec9d7dd03) (Some (mkNode (h32 0x0fd348b83e56090b7525967291ba6ae3c06f43cb926a41018b279747d702d329) (h32 0x44ef89daadd3a70d440f9af05579a1f73d2d9407710c524f21903ee56f3f3f1a) 4)) []), (mkPath (h32 0x252e31fcfd8f15f35cf1db8a250dc2f9920414047047f8263f509b2ec9d7dd03) (Some (mkNode (h32 0x0fd348b83e56090b7525967291ba6ae3c06f43cb926a41018b279747d702d329) (h32 0x44ef89daadd3a70d440f9af05579a1f73d2d9407710c524f21903ee56f3f3f1a) 4)) []))
    (None, None)
    (None, None)
    (Some (h32 0x0000000000000000000000000000000000000000000000000000000000000000)) None None))
  ; (CodeHashExists, (mkTrace (h20 0x6295ee1b4f6dd65047762f924ecd367c17eabf8f) (h32 0x293ccdc4280a75784fbdf8c7ae69b76e0852a88b140a7f330f49783d1347f626)
    ((mkPath (h32 0x252e31fcfd8f15f35cf1db8a250dc2f9920414047047f8263f509b2ec9d7dd03) (Some (mkNode (h32 0x0fd348b83e56090b7525967291ba6ae3c06f43cb926a41018b279747d702d329) (h32 0x44ef89daadd3a70d440f9af05579a1f73d2d9407710c524f21903ee56f3f3f1a) 4)) []), (mkPath (h32 0x252e31fcfd8f15f35cf1db8a250dc2f9920414047047f8263f509b2ec9d7dd03) (Some (mkNode (h32 0x0fd348b83e56090b7525967291ba6ae3c06f43cb926a41018b279747d702d329) (h32 0x44ef89daadd3a70d440f9af05579a1f73d2d9407710c524f21903ee56f3f3f1a) 4)) []))
    (None, None)
    (None, None)
    (Some (h32 0x0000000000000000000000000000000000000000000000000000000000000000)) None None))
  ; (AccountDoesNotExist, (mkTrace (h20 0x6295ee1b4f6dd65047762f924ecd367c17eabf8f) (h32 0x293ccdc4280a75784fbdf8c7ae69b76e0852a88b140a7f330f49783d1347f626)
    ((mkPath (h32 0x252e31fcfd8f15f35cf1db8a250dc2f9920414047047f8263f509b2ec9d7dd03) (Some (mkNode (h32 0x0fd348b83e56090b7525967291ba6ae3c06f43cb926a41018b279747d702d329) (h32 0x44ef89daadd3a70d440f9af05579a1f73d2d9407710c524f21903ee56f3f3f1a) 4)) []), (mkPath (h32 0x252e31fcfd8f15f35cf1db8a250dc2f9920414047047f8263f509b2ec9d7dd03) (Some (mkNode (h32 0x0fd348b83e56090b7525967291ba6ae3c06f43cb926a41018b279747d702d329) (h32 0x44ef89daadd3a70d440f9af05579a1f73d2d9407710c524f21903ee56f3f3f1a) 4)) []))
    (None, None)
    (None, None)
    (Some (h32 0x0000000000000000000000000000000000000000000000000000000000000000)) None None))
  ; (NonceChanged, (mkTrace (h20 0xa94f5374fce5edbc8e2a8697c15331677e6ebf0b) (h32 0x44ef89daadd3a70d440f9af05579a1f73d2d9407710c524f21903ee56f3f3f1a)
    ((mkPath (h32 0x252e31fcfd8f15f35cf1db8a250dc2f9920414047047f8263f509b2ec9d7dd03) (Some (mkNode (h32 0x0fd348b83e56090b7525967291ba6ae3c06f43cb926a41018b279747d702d329) (h32 0x44ef89daadd3a70d440f9af05579a1f73d2d9407710c524f21903ee56f3f3f1a) 4)) []), (mkPath (h32 0x21c93afa043be744e054aa90a3021bc3c28df7eb73686826fdb1af882db68d00) (Some (mkNode (h32 0x01a0cb636f821145c93f3fe1c01ef770710634b11442e684e9b2a3a5661ea11c) (h32 0x44ef89daadd3a70d440f9af05579a1f73d2d9407710c524f21903ee56f3f3f1a) 4)) []))
    ((Some (mkAccountData 0 0xde0b6b3a7640000 0xc5d2460186f7233c927e7db2dcc703c0e500b653ca82273b7bfad8045d85a470 0x2098f5fb9e239eab3ceac3f27b81e481dc3124d55ffed523a839ee8446b64864 0)), (Some (mkAccountData 1 0xde0b6b3a7640000 0xc5d2460186f7233c927e7db2dcc703c0e500b653ca82273b7bfad8045d85a470 0x2098f5fb9e239eab3ceac3f27b81e481dc3124d55ffed523a839ee8446b64864 0)))
    (None, None)
    (Some (h32 0x0000000000000000000000000000000000000000000000000000000000000000)) None None))
  ; (BalanceChanged, (mkTrace (h20 0xa94f5374fce5edbc8e2a8697c15331677e6ebf0b) (h32 0x44ef89daadd3a70d440f9af05579a1f73d2d9407710c524f21903ee56f3f3f1a)
    ((mkPath (h32 0x21c93afa043be744e054aa90a3021bc3c28df7eb73686826fdb1af882db68d00) (Some (mkNode (h32 0x01a0cb636f821145c93f3fe1c01ef770710634b11442e684e9b2a3a5661ea11c) (h32 0x44ef89daadd3a70d440f9af05579a1f73d2d9407710c524f21903ee56f3f3f1a) 4)) []), (mkPath (h32 0xb6a81800a5caa2576fc916d7b53dd7abc0439a6b80d177394b3fe0e00b8bbf2e) (Some (mkNode (h32 0xf90e9fb8011123e5fe020cd4d65c150902658a2ef051090d46c6f48de6d2d405) (h32 0x44ef89daadd3a70d440f9af05579a1f73d2d9407710c524f21903ee56f3f3f1a) 4)) []))
    ((Some (mkAccountData 1 0xde0b6b3a7640000 0xc5d2460186f7233c927e7db2dcc703c0e500b653ca82273b7bfad8045d85a470 0x2098f5fb9e239eab3ceac3f27b81e481dc3124d55ffed523a839ee8446b64864 0)), (Some (mkAccountData 1 0xde0b6b3a75b6e5e 0xc5d2460186f7233c927e7db2dcc703c0e500b653ca82273b7bfad8045d85a470 0x2098f5fb9e239eab3ceac3f27b81e481dc3124d55ffed523a839ee8446b64864 0)))
    (None, None)
    (Some (h32 0x0000000000000000000000000000000000000000000000000000000000000000)) None None))
  ; (StorageDoesNotExist, (mkTrace (h20 0x5300000000000000000000000000000000000000) (h32 0x0e246ded53daafa183c0d7b6ff1427e8318b63f416ac264dd3ea5ff3dc9b3808)
    ((mkPath (h32 0xb6a81800a5caa2576fc916d7b53dd7abc0439a6b80d177394b3fe0e00b8bbf2e) (Some (mkNode (h32 0xf90e9fb8011123e5fe020cd4d65c150902658a2ef051090d46c6f48de6d2d405) (h32 0x44ef89daadd3a70d440f9af05579a1f73d2d9407710c524f21903ee56f3f3f1a) 4)) []), (mkPath (h32 0xb6a81800a5caa2576fc916d7b53dd7abc0439a6b80d177394b3fe0e00b8bbf2e) (Some (mkNode (h32 0xf90e9fb8011123e5fe020cd4d65c150902658a2ef051090d46c6f48de6d2d405) (h32 0x44ef89daadd3a70d440f9af05579a1f73d2d9407710c524f21903ee56f3f3f1a) 4)) []))
    (None, None)
    (None, None)
    (Some (h32 0x0000000000000000000000000000000000000000000000000000000000000000)) (Some (h32 0x0000000000000000000000000000000000000000000000000000000000000000)) None))
  ; (StorageDoesNotExist, (mkTrace (h20 0x5300000000000000000000000000000000000002) (h32 0xc964ea4804d91b686d3213d75187b806cca56a03a8e669c905fbd1e415689a13)
    ((mkPath (h32 0xb6a81800a5caa2576fc916d7b53dd7abc0439a6b80d177394b3fe0e00b8bbf2e) (Some (mkNode (h32 0xf90e9fb8011123e5fe020cd4d65c150902658a2ef051090d46c6f48de6d2d405) (h32 0x44ef89daadd3a70d440f9af05579a1f73d2d9407710c524f21903ee56f3f3f1a) 4)) []), (mkPath (h32 0xb6a81800a5caa2576fc916d7b53dd7abc0439a6b80d177394b3fe0e00b8bbf2e) (Some (mkNode (h32 0xf90e9fb8011123e5fe020cd4d65c150902658a2ef051090d46c6f48de6d2d405) (h32 0x44ef89daadd3a70d440f9af05579a1f73d2d9407710c524f21903ee56f3f3f1a) 4)) []))
    (None, None)
    (None, None)
    (Some (h32 0x0000000000000000000000000000000000000000000000000000000000000000)) (Some (h32 0x0000000000000000000000000000000000000000000000000000000000000001)) None))
  ; (StorageDoesNotExist, (mkTrace (h20 0x5300000000000000000000000000000000000002) (h32 0xc964ea4804d91b686d3213d75187b806cca56a03a8e669c905fbd1e415689a13)
    ((mkPath (h32 0xb6a81800a5caa2576fc916d7b53dd7abc0439a6b80d177394b3fe0e00b8bbf2e) (Some (mkNode (h32 0xf90e9fb8011123e5fe020cd4d65c150902658a2ef051090d46c6f48de6d2d405) (h32 0x44ef89daadd3a70d440f9af05579a1f73d2d9407710c524f21903ee56f3f3f1a) 4)) []), (mkPath (h32 0xb6a81800a5caa2576fc916d7b53dd7abc0439a6b80d177394b3fe0e00b8bbf2e) (Some (mkNode (h32 0xf90e9fb8011123e5fe020cd4d65c150902658a2ef051090d46c6f48de6d2d405) (h32 0x44ef89daadd3a70d440f9af05579a1f73d2d9407710c524f21903ee56f3f3f1a) 4)) []))
    (None, None)
    (None, None)
    (Some (h32 0x0000000000000000000000000000000000000000000000000000000000000000)) (Some (h32 0x0000000000000000000000000000000000000000000000000000000000000002)) None))
  ; (StorageDoesNotExist, (mkTrace (h20 0x5300000000000000000000000000000000000002) (h32 0xc964ea4804d91b686d3213d75187b806cca56a03a8e669c905fbd1e415689a13)
    ((mkPath (h32 0xb6a81800a5caa2576fc916d7b53dd7abc0439a6b80d177394b3fe0e00b8bbf2e) (Some (mkNode (h32 0xf90e9fb8011123e5fe020cd4d65c150902658a2ef051090d46c6f48de6d2d405) (h32 0x44ef89daadd3a70d440f9af05579a1f73d2d9407710c524f21903ee56f3f3f1a) 4)) []), (mkPath (h32 0xb6a81800a5caa2576fc916d7b53dd7abc0439a6b80d177394b3fe0e00b8bbf2e) (Some (mkNode (h32 0xf90e9fb8011123e5fe020cd4d65c150902658a2ef051090d46c6f48de6d2d405) (h32 0x44ef89daadd3a70d440f9af05579a1f73d2d9407710c524f21903ee56f3f3f1a) 4)) []))
    (None, None)
    (None, None)
    (Some (h32 0x0000000000000000000000000000000000000000000000000000000000000000)) (Some (h32 0x0000000000000000000000000000000000000000000000000000000000000003)) None))
  ; (StorageDoesNotExist, (mkTrace (h20 0x6295ee1b4f6dd65047762f924ecd367c17eabf8f) (h32 0x293ccdc4280a75784fbdf8c7ae69b76e0852a88b140a7f330f49783d1347f626)
    ((mkPath (h32 0xb6a81800a5caa2576fc916d7b53dd7abc0439a6b80d177394b3fe0e00b8bbf2e) (Some (mkNode (h32 0xf90e9fb8011123e5fe020cd4d65c150902658a2ef051090d46c6f48de6d2d405) (h32 0x44ef89daadd3a70d440f9af05579a1f73d2d9407710c524f21903ee56f3f3f1a) 4)) []), (mkPath (h32 0xb6a81800a5caa2576fc916d7b53dd7abc0439a6b80d177394b3fe0e00b8bbf2e) (Some (mkNode (h32 0xf90e9fb8011123e5fe020cd4d65c150902658a2ef051090d46c6f48de6d2d405) (h32 0x44ef89daadd3a70d440f9af05579a1f73d2d9407710c524f21903ee56f3f3f1a) 4)) []))
    (None, None)
    (None, None)
    (Some (h32 0x0000000000000000000000000000000000000000000000000000000000000000)) (Some (h32 0x0000000000000000000000000000000000000000000000000000000000000001)) None)) ].
(* the traces with the proof type under which the tests prove them *)
Definition real_traces : list (MPTProofType * SMTTrace) :=
  [ (StorageChanged, real_depth_1_type_1_storage)
  ; (AccountDoesNotExist, real_empty_account_type_1)
  ; (BalanceChanged, real_empty_account_type_1_balance_update)
  ; (NonceChanged, real_empty_account_type_1_nonce_update)
  ; (AccountDoesNotExist, real_empty_account_type_2)
  ; (BalanceChanged, real_empty_account_type_2_balance_update)
  ; (NonceChanged, real_empty_account_type_2_nonce_update)
  ; (StorageChanged, real_empty_storage_type_1_update_a)
  ; (StorageChanged, real_empty_storage_type_1_update_b)
  ; (StorageChanged, real_empty_storage_type_1_update_c)
  ; (StorageChanged, real_empty_storage_type_2_update_a)
  ; (StorageChanged, real_empty_storage_type_2_update_b)
  ; (BalanceChanged, real_existing_account_balance_update)
  ; (CodeSizeExists, real_existing_account_code_size_update)
  ; (CodeHashExists, real_existing_account_keccak_codehash_update)
  ; (NonceChanged, real_existing_account_nonce_update)
  ; (PoseidonCodeHashExists, real_existing_account_poseidon_codehash_update)
  ; (StorageChanged, real_existing_storage_update)
  ; (StorageChanged, real_insert_into_singleton_storage_trie) ].
