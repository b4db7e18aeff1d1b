(** Model of src/pieces/zobrist.rs: the table (lines 5-728) copied value by value,
    and its lookup. *)
From Verif Require Export Coord.

(** src/pieces/zobrist.rs:3 *)
Definition BOARD_SIZE : nat := 361.

(** src/pieces/zobrist.rs:5-728 [ZOBRIST] *)
Definition ZOBRIST : list N := [
  0xffed071d11b312ad%N;
  0xecf90189c0cadd3d%N;
  0xe6bdde96d4fa3748%N;
  0x8cf2135fe4787aae%N;
  0xffb23ef4d00c9bec%N;
  0x18c5201e7df18c5f%N;
  0xef9487b0fc7f0992%N;
  0xe197bb05595adb8c%N;
  0xea02b680b521a6cb%N;
  0xf00ee1a027e5e8da%N;
  0xf95c8d2f81b73ca4%N;
  0x3bc64da59b3929b6%N;
  0xd6e2d7672e322688%N;
  0x9c42c9e1ee8fc65a%N;
  0x4060968eda5d9da4%N;
  0xdd40065fc119d289%N;
  0x43c626cccbb9d40b%N;
  0xa1bcdcfe50b37e9f%N;
  0xc47ec9ac4cb29638%N;
  0xb39023319783ca34%N;
  0x1f2267487a5a13fc%N;
  0xcd73e4b8b2db5401%N;
  0xb99687352b7959f8%N;
  0xea372286793e3c0e%N;
  0x3c9ec41c890d18ae%N;
  0x1df28abe15e2dd82%N;
  0xd73a4336f787e582%N;
  0xc9364dd2d6132038%N;
  0x1048cbc2b8d4d21f%N;
  0x8e5136e5d028dc78%N;
  0x90c612a3392d85fe%N;
  0x95ffe360a43ddcb7%N;
  0x04fc0d5307eb6f19%N;
  0xb344786f85f3422d%N;
  0x6079c5ab08e18db0%N;
  0x6d6831253430f004%N;
  0x4954991a0a8e300d%N;
  0x15adb6ff36554295%N;
  0xe8073013a2ca14fe%N;
  0x2f20c28ee59720ce%N;
  0xb244382bae2727d6%N;
  0xbd4d49c6d9749636%N;
  0x16e3b800d3e21e9b%N;
  0xdaccc6dff63d5b48%N;
  0x87d24b9bfe684d4a%N;
  0x438cb64140690869%N;
  0x2a89366f2219d9ec%N;
  0x8ff957ab0b6fb7df%N;
  0xb8620f42dddd18de%N;
  0xa4d9da836d18b346%N;
  0xca4a3b8d30a0caa1%N;
  0x4c2239cf4a15513d%N;
  0xf046fc64b6a9d8f6%N;
  0xbb642e59fa583f4d%N;
  0x39dd0e095b844988%N;
  0xbb7a8199c5c422e7%N;
  0x73cfe893dfbca4f5%N;
  0x4c968f1ef86213dd%N;
  0x55f3341777ada681%N;
  0xf580b5628e931e04%N;
  0xd0c8ba9ab4653bc7%N;
  0x23657699f444fbaa%N;
  0xa94675ac71721304%N;
  0xa936a8fc4be867f7%N;
  0x0dca04d0bb632985%N;
  0xe079a643598a995d%N;
  0x7e3ca199fa78ff54%N;
  0xa998db24ae5174cd%N;
  0x578baea1345cc13b%N;
  0x4908294d995fe5eb%N;
  0x135c12959161fc5e%N;
  0xb077124dcf8ece97%N;
  0xdccd310bda1fe0cd%N;
  0x3b2698f2d9543d7e%N;
  0x827d744f4bbc7230%N;
  0x2de9c046808bb4df%N;
  0x237c93a007cc5e11%N;
  0x7ecbd6e380419770%N;
  0x87f0429b59cac0ae%N;
  0xc324f44e81158223%N;
  0x5afb560c6e049911%N;
  0x0aaaf45528b52c81%N;
  0x1e2b2b410c025155%N;
  0x3a1619a928d3c684%N;
  0xe61f2d85c97caa87%N;
  0xa61b4ad58762c148%N;
  0x0807dc2757af83a2%N;
  0x607aa6776638718e%N;
  0x81ea144abd3657cb%N;
  0xee5aee2015191bdc%N;
  0xc1dbf1ddac51d7fb%N;
  0x7ce7f8387d679207%N;
  0x2f5cec8de68752ae%N;
  0x23731d72d1bbf318%N;
  0x4be7a3b4874bcde7%N;
  0x804749b94506cfc6%N;
  0x51d747b27b01c0c8%N;
  0xd7e32c23fe5ed7d6%N;
  0x5300ca45f88ac944%N;
  0xc455e69265b0c50b%N;
  0xd6d8901afebd7ef1%N;
  0x5ebb370a6014f1e7%N;
  0xa74664ba81a28901%N;
  0x5cd5fa7ddfe66618%N;
  0xc9f332ec69819f85%N;
  0xf63eac4bdc3f3a74%N;
  0x3bbe222291996444%N;
  0xab56c9a259486098%N;
  0x8cf7599cdf4f984b%N;
  0x986a048eb8b5cc4a%N;
  0x6c89e04fa76208fe%N;
  0xfa7b52143dbd2ba3%N;
  0xcc1f86236ea42540%N;
  0xcad5d6069fded223%N;
  0x30788a532f020ae1%N;
  0xde5a42448e93caaa%N;
  0x4e1b264a3b482c65%N;
  0xcc621853cf52e9c0%N;
  0xdcba5142cfac23fc%N;
  0x470ec24dc8821e11%N;
  0x416682d10b6be2aa%N;
  0xc0bf6184919d2ce7%N;
  0x6b382a57d2bc6836%N;
  0xf9d12ef4fb1bea50%N;
  0x23cf63237f4c2c5e%N;
  0x7edd9723b6bc3f03%N;
  0x51caf7cee79eef2e%N;
  0xa63617289db104eb%N;
  0x7142e75e1fee74f3%N;
  0x1366ebfe66a61f2d%N;
  0x1bd024255636d78f%N;
  0x4083c5db3ad12d8c%N;
  0x979be485f8e2d87d%N;
  0x27c040b2aac98673%N;
  0x930799065b1f62ce%N;
  0xffbd1146d482fd32%N;
  0xa30ba7f34d0988fd%N;
  0x6a95e6d24954b8e1%N;
  0x596827fb23cfe1a9%N;
  0x22ebd59d3071c632%N;
  0xd0bae2993d5d40cb%N;
  0xd63bd5ad7f13e009%N;
  0x7c4912c771a63c31%N;
  0x4e2457938cf214c8%N;
  0xdb31418b2bc24db1%N;
  0x5df66c2c1e61e8ea%N;
  0xa821d4dd8b89d118%N;
  0x5397fc0a502cf507%N;
  0x2f68d19148373b29%N;
  0xb90df64e732b2db9%N;
  0x6b958a8aaffff0ae%N;
  0x3e006cb0275141ed%N;
  0x1375a710e2442074%N;
  0xb0b7791426a61689%N;
  0x5815fc6e0bbb66db%N;
  0x6b8d999a8ab04800%N;
  0x1a68b2eef01e9814%N;
  0xaf6b0c8450bea6ea%N;
  0x66f0489eee437db8%N;
  0x3214d388efb21fe2%N;
  0x027609292d661096%N;
  0x308ae8e5565a034b%N;
  0xd87ff2074fd392f8%N;
  0x60c58be58132591d%N;
  0x67d2ff4b853936c4%N;
  0x7db433a6296af8cb%N;
  0xe6b2573dd3402f3e%N;
  0x33b74f38f1f0b064%N;
  0x4d2b9c5db14d8925%N;
  0x90f009787aed69ca%N;
  0x08fb92315b99e379%N;
  0x97acba8128008418%N;
  0x8e6c783b92c108ad%N;
  0x5193de4ac1dd8078%N;
  0x2f6d2073f6ef307f%N;
  0xf0e5dc6642400b5a%N;
  0x31b56bdff86d6eeb%N;
  0x28ebb6c9c890234f%N;
  0x80b6639dbda6caac%N;
  0x74f4562b2eb78311%N;
  0xe53f3fae1091c81e%N;
  0x6110029ffbd42183%N;
  0x6521f91d4e4ae23b%N;
  0x520f0e9a319516ad%N;
  0x3a15c06a9025c76a%N;
  0x2f74161556c992d2%N;
  0xb5a19d7849db021a%N;
  0x786576a9fee049d4%N;
  0x1f796fa153d84f2f%N;
  0x4cbc80b9db3bc0a8%N;
  0xc6cf2facac060816%N;
  0x954eb834b43ee58f%N;
  0x1858a3286b2b2f78%N;
  0xad16c1165fcf0f84%N;
  0x7c0e30266c9d9b9b%N;
  0xcb27b64df359b577%N;
  0x0ea1d846da6c8fcb%N;
  0x065e4fa04a19c562%N;
  0xff9cdc7265ec7f3e%N;
  0xd5e3cfd76b46e3cf%N;
  0x71c462c21da1fc7c%N;
  0xb03040c559974171%N;
  0x088636bf80c01d23%N;
  0x83e7d5e084010833%N;
  0x0ead9159fec7f6ea%N;
  0x512be0810e959b92%N;
  0x9459246e0cc9d386%N;
  0xfe8af53e8f589ba1%N;
  0xba7daaf1a35254c0%N;
  0x895b60a44cede4a6%N;
  0xc293564d52b1ee85%N;
  0xf2268ecec288f896%N;
  0x24cc6fc8e0c59506%N;
  0x8b426a02273d75b8%N;
  0x352a2195c0149caa%N;
  0xb634b2a3c3881008%N;
  0x0ceb104da8611bdd%N;
  0xbc83e1542ab80c64%N;
  0x88828a98f8162f94%N;
  0x7b1814fe29cddd97%N;
  0x24fe10f5aa6e44f8%N;
  0x0ba08d627940d923%N;
  0x9d50bdbc4d5545df%N;
  0x79d8637b9fedae72%N;
  0xe011ac1a1b377aea%N;
  0x6aa489fd562d6de8%N;
  0x49fbb282bb4d6724%N;
  0x4658aae8640b9c0b%N;
  0xe56c99304138a7ed%N;
  0xdd51cb20f430dc38%N;
  0x03d8a38c3a0960ac%N;
  0x3827c43d460d2a76%N;
  0x2318d42371937ac2%N;
  0xa1f65088ad4e6242%N;
  0x4b9b702180179dd0%N;
  0xaf84ed6cbe105114%N;
  0xff33944cd9c73770%N;
  0xcd1d0e337348734a%N;
  0x57e53dbe08e61c1d%N;
  0x3e6bc256e4506211%N;
  0x54e5024b6e299a63%N;
  0xc4212737e2bf31a0%N;
  0x75d9e361f537c0e9%N;
  0x0d5781c02c0f8b9c%N;
  0x9ae79e16c3297b6e%N;
  0xd8ba892058064fff%N;
  0x196b2e9079f17970%N;
  0x42f6feed4dcb341a%N;
  0xdc8c59aa217c96f1%N;
  0x03a80436c9e9f400%N;
  0x2b1a5e562e7a07dd%N;
  0xd315bd6a354bb7b3%N;
  0x186340c8a48a5b8d%N;
  0xb1ebc9cb90b10992%N;
  0x8e92a64c62b57713%N;
  0x00aded7d84d2f728%N;
  0x3d75a2c16b45c3bf%N;
  0xf14c18f0be7599ee%N;
  0x71e72d8b3bc96ee6%N;
  0xe424bd577cdcdd11%N;
  0x9d7e025c0098e7d7%N;
  0x0ba5b310e57264a6%N;
  0x4b816c07cb776372%N;
  0x4c21ba324d574294%N;
  0x687723d06579cda0%N;
  0xa1e0e658cd8a078e%N;
  0x0a1ad0876ea8300e%N;
  0xf7202e2aa17572e6%N;
  0xd82038b26e14b518%N;
  0x9ed576f870d23e18%N;
  0x4158f4a72ba78c25%N;
  0x90e8f131ff1895a1%N;
  0x049f2763078c1eff%N;
  0xb38e5efc0552dc07%N;
  0xed41e58241b68cd1%N;
  0x98629c74240ddc8a%N;
  0x8fcb5fafe734a05e%N;
  0x33b63d66b31501c9%N;
  0x345d1609913bd9bc%N;
  0x20803c1bd4714207%N;
  0x69778a52fe30b6c0%N;
  0xb8e4ca7f745a4a7c%N;
  0x9e4c437744a2ce23%N;
  0x54c18d21e5abfd95%N;
  0x7d476b4d0a6e325b%N;
  0x33cef9269dda5ff6%N;
  0xdff4b46777d53cfa%N;
  0x49a49d5d0e96d1ce%N;
  0x757ecc5547f124a8%N;
  0x7872770d311cade5%N;
  0xe260d262fa2ce397%N;
  0x66bba71297028e2c%N;
  0xf717ade849bc74b6%N;
  0xad6cf2cf35b20007%N;
  0xa5c121196f6e707e%N;
  0xd5b214248903b15a%N;
  0xce113c20f0616835%N;
  0xa72fd799f9efa0b7%N;
  0xd9f5e4295c9dc548%N;
  0x1d7da9e720429754%N;
  0x82bbad545fd2367d%N;
  0x41ff1a9e6bba4308%N;
  0x69a4037c94e4c16d%N;
  0x6c7c589a358bb56e%N;
  0x679129169875a79b%N;
  0x2392ba2b75a710de%N;
  0x76a0111351ffee93%N;
  0x4d6dedfc023d9e39%N;
  0x0788a89dd3ee2a40%N;
  0xf81d883b5106a3c3%N;
  0x081a547a09320007%N;
  0x9167531e2178944f%N;
  0xec0dc736e0eec197%N;
  0xa1476d2e03e058d5%N;
  0x25d3f8f416bc6ce2%N;
  0xcce7f439212e4069%N;
  0x4018907cb452f5ec%N;
  0x7703bfa371908745%N;
  0xcb6b24422f166d0d%N;
  0xf866bc3cddf7eae2%N;
  0x85929c9f9ed44504%N;
  0x5f74622b3cd43bf1%N;
  0x058772f3980000e5%N;
  0x070b15cc483c42bb%N;
  0x065c34c65476557a%N;
  0x20437aa23d5f1aa5%N;
  0xb0c1ee0d33ffc42f%N;
  0x9122f4fabf556457%N;
  0xd3b78b0e8fda15dc%N;
  0xb67847c35c99d71f%N;
  0x4c4196e67ff4318e%N;
  0x54a81377669ce1f1%N;
  0x386250fb4b4782ea%N;
  0x0bc13dbac30ee364%N;
  0xe8609ebba86c984e%N;
  0x8ced4af99e54ec3f%N;
  0x7fea7248e1a52f74%N;
  0x8ef0295a87a680f4%N;
  0x5466685c09b8bf63%N;
  0x6c217306345a79f6%N;
  0x82d0271519ba0113%N;
  0xfd005481c1f223f8%N;
  0x0dd8e274ecdfd585%N;
  0x35438a013abed354%N;
  0x48dc4319e2888dd2%N;
  0xd524169e8e169216%N;
  0x10a4441946235b79%N;
  0xd2b01cce94e2068d%N;
  0xb72a1804993dc1d0%N;
  0xae8077b3b342a818%N;
  0x3b2d09f18d2de617%N;
  0x424cdf442cea3865%N;
  0x8c6a04e43c3e2ab5%N;
  0xa2ee66fb9ff79aaa%N;
  0x304781a55e40bd56%N;
  0x1bfdddec890d7f6f%N;
  0x3e832460b996395c%N;
  0x31505d0570add371%N;
  0x1088cfe8f17befa5%N;
  0x77aace5f7b1fdd7c%N;
  0x1d3fe89b72a0c58a%N;
  0x946664802a9c9239%N;
  0x6930dcf0207993b4%N;
  0x249b5b0c5adad863%N;
  0x82d7090a33185db6%N;
  0x639ec3782c9d5b9a%N;
  0x0bd98db3cdf19cd9%N;
  0xd671ed7a1f9bc4f8%N;
  0x7cacce8a2da52954%N;
  0xe1706dd47de3b0ef%N;
  0x43b7ff648e1b7f22%N;
  0x62e3b81ffc151742%N;
  0x7488012f61fa0a3c%N;
  0x01016484bb508d30%N;
  0x0b14e9e5c104cf2c%N;
  0xe7dbced336a13bd2%N;
  0xb14c2fec7bc22502%N;
  0x0c54de113d949d5b%N;
  0x89e58e620dcd220c%N;
  0x8b7f4c107d6f0d64%N;
  0x7f00500477d88b2f%N;
  0x42a89245bd696c3e%N;
  0x1fa12f9e4b6b1cd2%N;
  0xe12d31511923c2f9%N;
  0xca666b4a6023f33e%N;
  0xae4c1743f99766de%N;
  0x42965484dff4cdd9%N;
  0x5b91e675e3ed8dd2%N;
  0x86db900f24c12eb3%N;
  0xcc9349a5b6e00d9b%N;
  0xf688e8f900dc7ab5%N;
  0xadf85ed4cb4f1eb3%N;
  0x634b32605eb44ff0%N;
  0x9597be1bde75293f%N;
  0xe1f27be73483355d%N;
  0x0673f9c898bf0bdf%N;
  0x3d8ba2c981211905%N;
  0xcbbea840b141155d%N;
  0xc34a186c4f57156b%N;
  0x4f839232255e3c58%N;
  0x8fbc6c1cb71ac277%N;
  0x7c3d26c1a2b434a8%N;
  0xf327a6245d13ab74%N;
  0x9c845e9de935c70c%N;
  0x0d81c820b992f3a9%N;
  0x81f6abd24f6c2897%N;
  0xde46ba0f5ae920d9%N;
  0x5a74eeb502fa9452%N;
  0x4b0e0b030f002d72%N;
  0x448146c107dcb7c7%N;
  0x7c8b7caf4e8a8130%N;
  0x32ba067d4c675e33%N;
  0x865696767acd61bd%N;
  0xc2d164b5f48675d0%N;
  0xb5eaff929c9b9423%N;
  0xba900e340eae856c%N;
  0x000d6df1cdbbe9b3%N;
  0x0d77a9d0e9ef6268%N;
  0x561beca9084c4eea%N;
  0x9370d0875d271e2a%N;
  0x044d5c2bf824ff5a%N;
  0x17745079d924db88%N;
  0x81e16e4d621e07e4%N;
  0xf9098be3cd62e977%N;
  0xf52f34c5729e80a3%N;
  0xeb8ba0773afd397c%N;
  0xeadc38867c201412%N;
  0xcd8863de90f04970%N;
  0xc96f20621575d542%N;
  0xace572369a69280a%N;
  0xf0685f0e04e9dbee%N;
  0xbb42e0324a9f6b5d%N;
  0x34d3c9d96f3665f1%N;
  0xb053e90e86499012%N;
  0x103fd02a1654d54d%N;
  0x7cdd5c3c3bd15adf%N;
  0xe7e92768d7192f63%N;
  0x76df472643260aca%N;
  0xb6fd62814d6d7592%N;
  0xc3f47e986a011669%N;
  0xe27c7168257f6314%N;
  0x884dc909226ee329%N;
  0xb0774ae1e1ada500%N;
  0x26b05cf019e83a8c%N;
  0xe439a5ce0f381137%N;
  0x1568f337809d55ed%N;
  0x4bd44b4cc5be85eb%N;
  0xf04f9c0c165c0788%N;
  0xc9d6610ccda678f5%N;
  0x4f9ef2a23315f34d%N;
  0x7fb4fbd5bcb02081%N;
  0x6b6c861e76824037%N;
  0x6e78c79605614403%N;
  0xeddd2a252971661e%N;
  0xd47b6fc3fa0988c7%N;
  0xf914d5a96dc4b2d4%N;
  0xc7729e1f25d19f68%N;
  0x5aa111b3cef549ef%N;
  0xd0645054eb43250e%N;
  0x4399e0aa954fcbf2%N;
  0xea122ea681b68e79%N;
  0xe51dfbba51577e84%N;
  0x0ef1002e8b3b3620%N;
  0xa681b601dfc4dafd%N;
  0xcc65993c384e88a0%N;
  0x9ed16855f95f1511%N;
  0xedc4685e87265b0a%N;
  0x20bd733c113b7f39%N;
  0xef2799ccec2c292c%N;
  0xb9e8b4dcac9902d4%N;
  0xf25e96d20e2cb72a%N;
  0x95d215ef7197ee00%N;
  0xc67a87ec9a67c442%N;
  0xafcc624d2b5eda7d%N;
  0xb862cd11d1c8e9a6%N;
  0xa1b3945705610dae%N;
  0x42b9c16a9778e59f%N;
  0xf9f25fbb0cb86fde%N;
  0x7c11a198ce2597ba%N;
  0x0b0a5ea1e6c91f90%N;
  0x6f27e5f676496a05%N;
  0xbe1736cbdb0c6dbe%N;
  0x99e12b91c3d3e64a%N;
  0x7cf2b6116f825d28%N;
  0x2a6c2bd09cdf79ea%N;
  0x1e86487b1c5dd436%N;
  0xf9aa187be182c195%N;
  0x1e28312f48842ef5%N;
  0x610242498676789a%N;
  0x621cd9af9713f853%N;
  0x3d62faacc8a81ffd%N;
  0x15fa7b8b2cfde2fd%N;
  0xbe8c7ab67455ed8e%N;
  0xb51844411a6a5824%N;
  0xf5e9079a26bca82d%N;
  0xc86c269210507418%N;
  0x4f56e0c8eb907c7e%N;
  0x285dba4b69f40460%N;
  0xb87e641acf13e25b%N;
  0x200c1877831edcea%N;
  0x7102296e52fd9613%N;
  0x1935b38ef8b51781%N;
  0xcf9027577ffad274%N;
  0xde15b04cb305f91d%N;
  0x399a7973d47553e1%N;
  0x763345af66e2fd7e%N;
  0xebab4dd3ac811c61%N;
  0x243ab1e863dc0b2c%N;
  0x5d3a5f30dbfb621a%N;
  0x22eb7c4eebf83fee%N;
  0x1b66835415b802f0%N;
  0x53aa8b13b032a775%N;
  0xea2982af25c1cbdb%N;
  0x0825f4962f230194%N;
  0x1686fff282370f0e%N;
  0x9d259d07a364ffb3%N;
  0xbd89347e8e97e58f%N;
  0x59d106550501df96%N;
  0x6744c8a73bf3b7a2%N;
  0x1b1e35f5da224153%N;
  0xea69445d528b7f0d%N;
  0x072e67a9c3540d9c%N;
  0xac59e218b262079a%N;
  0x541139418da94bbc%N;
  0x2e9324fd396f8366%N;
  0xab9e0d88d7e4710a%N;
  0x22ce2b42660715a9%N;
  0x0b1ac2713a42e863%N;
  0xb7c8fb783fff8743%N;
  0xf4c3c680e41e6930%N;
  0xc16a7c67ad28321b%N;
  0x09491e19b4cc4597%N;
  0xcd79ef5a1f7827e4%N;
  0x210acd8c2b6d3cb7%N;
  0x34ad02198d74bb46%N;
  0x86f0d870cd0836b2%N;
  0x69459ffa0a73547f%N;
  0x55af3b1e73c0e8c3%N;
  0xfb4c6855ffafff2e%N;
  0x39ad394a5781c5af%N;
  0x3be6b3e487c1f01b%N;
  0x8bc3d4bdc15b7a84%N;
  0xf6b6cd8fe0d1ad84%N;
  0x1a7119a8bed999c8%N;
  0x8bcc72854ab4658a%N;
  0x33e17ae3792a32fd%N;
  0x828a51465e1b2964%N;
  0x50ae83f0105ff6c9%N;
  0x95e8fdc8d027e0a1%N;
  0xf6aac7e825f29cfd%N;
  0x17ff57dd36371593%N;
  0xaa87723774045167%N;
  0xdc20c4e9176d0ad9%N;
  0x90de641300712f0b%N;
  0x6ccab28e7e8a9ef3%N;
  0x67b385adef5d8ad1%N;
  0x27423642427016ce%N;
  0xbdf08f06ac8aa8a1%N;
  0xa0e7f50a887db11c%N;
  0xbe0bcc02ceffbf85%N;
  0x4325fe337cfa9de2%N;
  0xe2731f30eb795e21%N;
  0x83fa353e52be142e%N;
  0x07c6b37be3ee5cdb%N;
  0xaeb4661871ed15c6%N;
  0xd6939572c451e319%N;
  0x5cafd2da868141c5%N;
  0x60ff7646650a8352%N;
  0x65e80c4ed9ae1f73%N;
  0xefa78c71cab9dbe6%N;
  0x83b4213a320ce6e7%N;
  0xd28c105722ff0820%N;
  0x40d6da1ea58c7ef4%N;
  0x25fa3e1f5ba9ab6e%N;
  0x1877ef8772d57617%N;
  0xdee8356ca9c583d2%N;
  0xec16bd521367f479%N;
  0x795acb0968ba0ac4%N;
  0xb6036a3d9e86be84%N;
  0x52ac27047fb89b73%N;
  0xf1de7793fce07e3e%N;
  0x38ba449607c0e151%N;
  0xb7e2714f8b423fa9%N;
  0xaacf394d24991645%N;
  0x2092d2d4b7010f5c%N;
  0xc4483d45c2fb4bab%N;
  0xa6314753fe64e71a%N;
  0x640f0fca920aaef9%N;
  0x7b9fd8506ea5a627%N;
  0xe19209e307feaf66%N;
  0xd70eff427e932fe1%N;
  0xd83d465a6e9bb5a9%N;
  0x8dd4abfb17de75e0%N;
  0x62f9f7bcdb8e597f%N;
  0xf492a3d3eecf2432%N;
  0x12bcd7102edec9ec%N;
  0x95d5c63094c2f23f%N;
  0xf4ac5ee81afd2fe6%N;
  0x5b940a955dab742d%N;
  0x139b83e868bf056d%N;
  0x30e095e8221d350c%N;
  0x126d1f66cdd2263e%N;
  0x249e399e3cd82f42%N;
  0x0fd089d1aa9390a1%N;
  0xb7889a6effb23a68%N;
  0xfd4ae81195f65486%N;
  0x238addf60e80915c%N;
  0x4a4f4e49981cd2b9%N;
  0x3006a8622b92b49d%N;
  0xf8b77742eb44cef3%N;
  0x14f07087b7df0be3%N;
  0x56cec0c144a0e6ba%N;
  0x015f1cce86426f62%N;
  0x51a66e4850824d1f%N;
  0x551be1706b72f90f%N;
  0xc46775d3b80d3604%N;
  0x77b0799fa151a361%N;
  0xd8bf086fec29971a%N;
  0x3047c9159683f619%N;
  0xa4ac08cb5defc403%N;
  0xc86f1d5dc63f145f%N;
  0x5dd1f54dd2ce9244%N;
  0xc969f9913b7fff8d%N;
  0x3af8168339c4126d%N;
  0xac4939c3026c3d26%N;
  0xa7ba98513b0d0ed7%N;
  0xe321f27711414a4d%N;
  0xf17ac259505a1058%N;
  0x8a2e6f7b6e962899%N;
  0xdb5f4fc550bf2b40%N;
  0x086e713192e6a647%N;
  0x5cf76cf350c0496e%N;
  0x8aad0b42766ba4d3%N;
  0x0813da4363580882%N;
  0xe13a6434148a9377%N;
  0x1975e86313613856%N;
  0x688e3633a9abf713%N;
  0xa8b29cec3a72f756%N;
  0xbfbb4a92b270da4b%N;
  0x8e2e276495776bcd%N;
  0xf9853448b6733127%N;
  0x6edb38fa91362bd4%N;
  0xc89cbd2576f07b09%N;
  0x4106c423f0c78234%N;
  0xb27a1deadbf9ee06%N;
  0x84e069bbb2b25f34%N;
  0x30cf7c7a120d2155%N;
  0x7b4ef79d269b1a5b%N;
  0x832c6f75f119134a%N;
  0xeb0d7f9b6f6d77fe%N;
  0xeb6ef515e84ccbb1%N;
  0xdd5fd13970d8ddf5%N;
  0x4484196af7a54bcb%N;
  0x5bdd8831b6cfea97%N;
  0x3c37e9541504986a%N;
  0x7824e0d9b3272b5e%N;
  0x4d8488934727b384%N;
  0xa629956f11682856%N;
  0xcfdc46343df6ff24%N;
  0x9305669eb9c719d9%N;
  0x8c6191864cf0caf3%N;
  0x537b2c1b9609df4c%N;
  0x3f0c170c5579f624%N;
  0xd03c333ee9396cd2%N;
  0x8c13d9740fddd3f0%N;
  0x7736b3cce7e2140e%N;
  0xd99d77bf2c5bca13%N;
  0x8a9622acdb083960%N;
  0x6a11a7151c561684%N;
  0xc01019e50e2d13ca%N;
  0xae2a3f13be66529f%N;
  0x6c1e0efa8f291ccf%N;
  0xad0debb653a8307c%N;
  0x32f87a468edec613%N;
  0xf85fdf91f576bfe9%N;
  0x1d196c0f998a39a7%N;
  0x39cf7527847ae488%N;
  0xda0369e9814b24fe%N;
  0x32be9584d32fa960%N;
  0xd75af31f57677a7d%N;
  0x6ce27d630ae193d8%N;
  0xc607d26729657f07%N;
  0xc46f7e76df3c8e91%N;
  0x4186935dd393a7d6%N;
  0x108462eb65cc70bd%N;
  0x267be3553f62ae56%N;
  0xa8df84457135f0fb%N;
  0xabb5c46efb8a5bf7%N;
  0xce2a9920af2e448c%N;
  0x9b1f07ee7f12da40%N;
  0x3312fca32fa3d61b%N;
  0xac9376c471828c29%N;
  0x8ee9ebb867d017c1%N;
  0x237308a02eb22cc3%N;
  0xd2c377cc9182f0d6%N;
  0xd5e601dcee3473e1%N;
  0xdb671b67e05575ea%N;
  0xd4e6f5a7a5b8f722%N;
  0x5cf0ab9559904c97%N;
  0x34de2f8e6251af7d%N;
  0x569c0998320d2ccb%N;
  0x8384ef6e502c6b49%N;
  0x59a5c1a151e9ca86%N;
  0xdbe815b25b0bfab0%N;
  0xa7930caeada860e2%N;
  0x941c79f97d13c2cf%N;
  0x178e9475f9189a45%N;
  0xf630969177e6cd85%N;
  0x105af3050a248543%N;
  0x4e94b0b094520476%N;
  0xd8e51f387ec7586f%N;
  0x2a8d3f04ab732804%N;
  0x1708bb6f8fd7753c%N;
  0x0fecf46dae27a1a5%N;
  0x494eb706a6055c3c%N;
  0xe969edd2e828f99e%N;
  0xe3d2bbc0df3e94d1%N;
  0xe6b4bd22566d824c%N;
  0xd091e014a1cfbac5%N;
  0x8a4f96b61aa88a63%N;
  0x02232166fd239e75%N;
  0x88fc7ffcd3d2e9bc%N
].

(** src/pieces/zobrist.rs:730-734 [index_zobrist]: [color as usize - 1] is 0 for
    Black and 1 for White (discriminants in src/pieces/stones.rs:10-13); the
    [debug_assert!] there always holds. *)
Definition index_zobrist (index : nat) (c : color) : res N :=
  let page_idx := match c with Black => 0 | White => 1 end in
  vget ZOBRIST (index + BOARD_SIZE * page_idx)%nat.
