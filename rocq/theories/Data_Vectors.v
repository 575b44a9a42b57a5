(** Test vectors of the repository: /repo/sha1cd_test.go lines 25-58 and 161-172, the files of
    /repo/test/testdata/files (of the SHAttered files the first 448 bytes, the part that differs included) and the
    expected hashes of /repo/test/native_test.go lines 126-161.  Written by tools/gen_vectors.py; hexadecimal. *)
From Coq Require Import String List.
Import ListNotations.
Local Open Scope string_scope.

(** Digest, input, state after the first half of the input. *)
Definition golden : list (string * string * string) :=
  [("76245dbf96f661bd221046197ab8b9f063f11bad", "6161616161616161616161616161616161616161616161616161616161616161616161616161616161616161616161616161616161616161616161616161616161616161616161616161616161616161616161616161616161616161616161616161616161616161616161616161616161616161616161616161616161616161616161616161616161616161616161616161616161616161616161616161616161616161616161616161616161616161616161616161616161616161616161616161616161616161616161616161616161616161616161616161616161616161616161616161616161616161616161616161616161616161616161616161616161616161616161616161616161616161616161616161616161616161616161616161616161616161616161610a", "7368616364010ba02949de712838689e76e5885bf88117ba3444616161616161616161616161616161616161616161610000000000000000000000000000000000000000000000000000000000000000000000000000000000000000000000000096");
   ("da39a3ee5e6b4b0d3255bfef95601890afd80709", "", "73686163640167452301efcdab8998badcfe10325476c3d2e1f0000000000000000000000000000000000000000000000000000000000000000000000000000000000000000000000000000000000000000000000000000000000000000000000000");
   ("86f7e437faa5a7fce15d1ddcb9eaeaea377667b8", "61", "73686163640167452301efcdab8998badcfe10325476c3d2e1f0000000000000000000000000000000000000000000000000000000000000000000000000000000000000000000000000000000000000000000000000000000000000000000000000");
   ("da23614e02469a0d7c7bd1bdab5c9c474b1904dc", "6162", "73686163640167452301efcdab8998badcfe10325476c3d2e1f0610000000000000000000000000000000000000000000000000000000000000000000000000000000000000000000000000000000000000000000000000000000000000000000001");
   ("a9993e364706816aba3e25717850c26c9cd0d89d", "616263", "73686163640167452301efcdab8998badcfe10325476c3d2e1f0610000000000000000000000000000000000000000000000000000000000000000000000000000000000000000000000000000000000000000000000000000000000000000000001");
   ("81fe8bfe87576c3ecb22426f8e57847382917acf", "61626364", "73686163640167452301efcdab8998badcfe10325476c3d2e1f0616200000000000000000000000000000000000000000000000000000000000000000000000000000000000000000000000000000000000000000000000000000000000000000002");
   ("03de6c570bfe24bfc328ccd7ca46b76eadaf4334", "6162636465", "73686163640167452301efcdab8998badcfe10325476c3d2e1f0616200000000000000000000000000000000000000000000000000000000000000000000000000000000000000000000000000000000000000000000000000000000000000000002");
   ("1f8ac10f23c5b5bc1167bda84b833e5c057a77d2", "616263646566", "73686163640167452301efcdab8998badcfe10325476c3d2e1f0616263000000000000000000000000000000000000000000000000000000000000000000000000000000000000000000000000000000000000000000000000000000000000000003");
   ("2fb5e13419fc89246865e7a324f476ec624e8740", "61626364656667", "73686163640167452301efcdab8998badcfe10325476c3d2e1f0616263000000000000000000000000000000000000000000000000000000000000000000000000000000000000000000000000000000000000000000000000000000000000000003");
   ("425af12a0743502b322e93a015bcf868e324d56a", "6162636465666768", "73686163640167452301efcdab8998badcfe10325476c3d2e1f0616263640000000000000000000000000000000000000000000000000000000000000000000000000000000000000000000000000000000000000000000000000000000000000004");
   ("c63b19f1e4c8b5f76b25c49b8b87f57d8e4872a1", "616263646566676869", "73686163640167452301efcdab8998badcfe10325476c3d2e1f0616263640000000000000000000000000000000000000000000000000000000000000000000000000000000000000000000000000000000000000000000000000000000000000004");
   ("d68c19a0a345b7eab78d5e11e991c026ec60db63", "6162636465666768696a", "73686163640167452301efcdab8998badcfe10325476c3d2e1f0616263646500000000000000000000000000000000000000000000000000000000000000000000000000000000000000000000000000000000000000000000000000000000000005");
   ("ebf81ddcbe5bf13aaabdc4d65354fdf2044f38a7", "44697363617264206d65646963696e65206d6f7265207468616e2074776f207965617273206f6c642e", "73686163640167452301efcdab8998badcfe10325476c3d2e1f044697363617264206d65646963696e65206d6f7200000000000000000000000000000000000000000000000000000000000000000000000000000000000000000000000000000014");
   ("e5dea09392dd886ca63531aaa00571dc07554bb6", "48652077686f2068617320612073686164792070617374206b6e6f77732074686174206e69636520677579732066696e697368206c6173742e", "73686163640167452301efcdab8998badcfe10325476c3d2e1f048652077686f2068617320612073686164792070617374206b6e6f77000000000000000000000000000000000000000000000000000000000000000000000000000000000000001c");
   ("45988f7234467b94e3e9494434c96ee3609d8f8f", "4920776f756c646e2774206d617272792068696d207769746820612074656e20666f6f7420706f6c652e", "73686163640167452301efcdab8998badcfe10325476c3d2e1f04920776f756c646e2774206d617272792068696d20000000000000000000000000000000000000000000000000000000000000000000000000000000000000000000000000000015");
   ("55dee037eb7460d5a692d1ce11330b260e40c988", "46726565212046726565212f4120747269702f746f204d6172732f666f72203930302f656d707479206a6172732f4275726d61205368617665", "73686163640167452301efcdab8998badcfe10325476c3d2e1f046726565212046726565212f4120747269702f746f204d6172732f66000000000000000000000000000000000000000000000000000000000000000000000000000000000000001c");
   ("b7bc5fb91080c7de6b582ea281f8a396d7c0aee8", "5468652064617973206f6620746865206469676974616c20776174636820617265206e756d62657265642e20202d546f6d2053746f7070617264", "73686163640167452301efcdab8998badcfe10325476c3d2e1f05468652064617973206f6620746865206469676974616c2077617463680000000000000000000000000000000000000000000000000000000000000000000000000000000000001d");
   ("c3aed9358f7c77f523afe86135f06b95b3999797", "4e6570616c207072656d69657220776f6e27742072657369676e2e", "73686163640167452301efcdab8998badcfe10325476c3d2e1f04e6570616c207072656d696572000000000000000000000000000000000000000000000000000000000000000000000000000000000000000000000000000000000000000000000d");
   ("6e29d302bf6e3a5e4305ff318d983197d6906bb9", "466f7220657665727920616374696f6e20746865726520697320616e20657175616c20616e64206f70706f7369746520676f7665726e6d656e742070726f6772616d2e", "73686163640167452301efcdab8998badcfe10325476c3d2e1f0466f7220657665727920616374696f6e20746865726520697320616e2065717561000000000000000000000000000000000000000000000000000000000000000000000000000021");
   ("597f6a540010f94c15d71806a99a2c8710e747bd", "486973206d6f6e6579206973207477696365207461696e7465643a20277461696e7420796f75727320616e6420277461696e74206d696e652e", "73686163640167452301efcdab8998badcfe10325476c3d2e1f0486973206d6f6e6579206973207477696365207461696e7465643a20000000000000000000000000000000000000000000000000000000000000000000000000000000000000001c");
   ("6859733b2590a8a091cecf50086febc5ceef1e80", "5468657265206973206e6f20726561736f6e20666f7220616e7920696e646976696475616c20746f2068617665206120636f6d707574657220696e20746865697220686f6d652e202d4b656e204f6c73656e2c2031393737", "73686163640167452301efcdab8998badcfe10325476c3d2e1f05468657265206973206e6f20726561736f6e20666f7220616e7920696e646976696475616c20746f206861760000000000000000000000000000000000000000000000000000002c");
   ("514b2630ec089b8aee18795fc0cf1f4860cdacad", "4974277320612074696e79206368616e676520746f2074686520636f646520616e64206e6f7420636f6d706c6574656c792064697367757374696e672e202d20426f62204d616e6368656b", "73686163640167452301efcdab8998badcfe10325476c3d2e1f04974277320612074696e79206368616e676520746f2074686520636f646520616e64206e6f0000000000000000000000000000000000000000000000000000000000000000000025");
   ("c5ca0d4a7b6676fc7aa72caa41cc3d5df567ed69", "73697a653a2020612e6f75743a2020626164206d61676963", "73686163640167452301efcdab8998badcfe10325476c3d2e1f073697a653a2020612e6f757400000000000000000000000000000000000000000000000000000000000000000000000000000000000000000000000000000000000000000000000c");
   ("74c51fa9a04eadc8c1bbeaa7fc442f834b90a00a", "546865206d616a6f722070726f626c656d20697320776974682073656e646d61696c2e20202d4d61726b20486f72746f6e", "73686163640167452301efcdab8998badcfe10325476c3d2e1f0546865206d616a6f722070726f626c656d20697320776974000000000000000000000000000000000000000000000000000000000000000000000000000000000000000000000018");
   ("0b4c4ce5f52c3ad2821852a8dc00217fa18b8b66", "47697665206d65206120726f636b2c20706170657220616e642073636973736f727320616e6420492077696c6c206d6f76652074686520776f726c642e20204343466573746f6f6e", "73686163640167452301efcdab8998badcfe10325476c3d2e1f047697665206d65206120726f636b2c20706170657220616e642073636973736f72732061000000000000000000000000000000000000000000000000000000000000000000000024");
   ("3ae7937dd790315beb0f48330e8642237c61550a", "49662074686520656e656d792069732077697468696e2072616e67652c207468656e20736f2061726520796f752e", "73686163640167452301efcdab8998badcfe10325476c3d2e1f049662074686520656e656d792069732077697468696e2000000000000000000000000000000000000000000000000000000000000000000000000000000000000000000000000017");
   ("410a2b296df92b9a47412b13281df8f830a9f44b", "497427732077656c6c2077652063616e6e6f742068656172207468652073637265616d732f546861742077652063726561746520696e206f74686572732720647265616d732e", "73686163640167452301efcdab8998badcfe10325476c3d2e1f0497427732077656c6c2077652063616e6e6f742068656172207468652073637265616d00000000000000000000000000000000000000000000000000000000000000000000000023");
   ("841e7c85ca1adcddbdd0187f1289acb5c642f7f5", "596f752072656d696e64206d65206f6620612054562073686f772c206275742074686174277320616c6c2072696768743a204920776174636820697420616e797761792e", "73686163640167452301efcdab8998badcfe10325476c3d2e1f0596f752072656d696e64206d65206f6620612054562073686f772c206275742074680000000000000000000000000000000000000000000000000000000000000000000000000022");
   ("163173b825d03b952601376b25212df66763e1db", "4320697320617320706f727461626c652061732053746f6e6568656467652121", "73686163640167452301efcdab8998badcfe10325476c3d2e1f04320697320617320706f727461626c650000000000000000000000000000000000000000000000000000000000000000000000000000000000000000000000000000000000000010");
   ("32b0377f2687eb88e22106f133c586ab314d5279", "4576656e206966204920636f756c64206265205368616b657370656172652c2049207468696e6b20492073686f756c64207374696c6c2063686f6f736520746f20626520466172616461792e202d20412e204875786c6579", "73686163640167452301efcdab8998badcfe10325476c3d2e1f04576656e206966204920636f756c64206265205368616b657370656172652c2049207468696e6b20492073680000000000000000000000000000000000000000000000000000002c");
   ("0885aaf99b569542fd165fa44e322718f4a984e0", "546865206675676163697479206f66206120636f6e7374697475656e7420696e2061206d697874757265206f66206761736573206174206120676976656e2074656d70657261747572652069732070726f706f7274696f6e616c20746f20697473206d6f6c65206672616374696f6e2e20204c657769732d52616e64616c6c2052756c65", "736861636401787df40debf21087e85bb24a412444b7d8ba7838656d00000000000000000000000000000000000000000000000000000000000000000000000000000000000000000000000000000000000000000000000000000000000000000042");
   ("6627d6904d71420b0bf3886ab629623538689f45", "486f772063616e20796f752077726974652061206269672073797374656d20776974686f757420432b2b3f20202d5061756c20476c69636b", "73686163640167452301efcdab8998badcfe10325476c3d2e1f0486f772063616e20796f752077726974652061206269672073797374000000000000000000000000000000000000000000000000000000000000000000000000000000000000001c")].

(** State, digest. *)
Definition large_unmarshal : list (string * string) :=
  [("73686163640113bcfe838cbddf501fd8dabf3c9e6a693874e1a5404142434445464748494a4b4c4d4e4f505152535455565758595a5b5c5d5e5f606162636465666768696a6b6c6d6e6f7071727374757600000000000000000000000001a7564377", "bc6245c9959cc33e1c2592e5c9ea9b5d0431246c");
   ("7368616364016d3b16a652be40a96ec488f953030042c2dc76cf404142434445464748494a4b4c4d4e4f505152535455565758595a5b5c5d5e5f606162636465666768696a6b6c6d6e6f707172737475760000000000000000000000000187564377", "8f2d1c0e4271768f35feb918bfe21ea1387a2072")].

Definition shattered1_head : string :=
  "255044462d312e330a25e2e3cfd30a0a0a312030206f626a0a3c3c2f57696474682032203020522f4865696768742033203020522f547970652034203020522f537562747970652035203020522f46696c7465722036203020522f436f6c6f7253706163652037203020522f4c656e6774682038203020522f42697473506572436f6d706f6e656e7420383e3e0a73747265616d0affd8fffe00245348412d3120697320646561642121212121852fec092339759c39b1a1c63c4c97e1fffe017346dc9166b67e118f029ab621b2560ff9ca67cca8c7f85ba84c79030c2b3de218f86db3a90901d5df45c14f26fedfb3dc38e96ac22fe7bd728f0e45bce046d23c570feb141398bb552ef5a0a82be331fea48037b8b5d71f0e332edf93ac3500eb4ddc0decc1a864790c782c76215660dd309791d06bd0af3f98cda4bc4629b10000000000000000000000000000000000000000000000000000000000000000000000000000000000000000000000000000000000000000000000000000000000000000000000000000000000000000000000000000000000000000000000000000000000000000000000000000000000000000000000000000000000000000".
Definition shattered2_head : string :=
  "255044462d312e330a25e2e3cfd30a0a0a312030206f626a0a3c3c2f57696474682032203020522f4865696768742033203020522f547970652034203020522f537562747970652035203020522f46696c7465722036203020522f436f6c6f7253706163652037203020522f4c656e6774682038203020522f42697473506572436f6d706f6e656e7420383e3e0a73747265616d0affd8fffe00245348412d3120697320646561642121212121852fec092339759c39b1a1c63c4c97e1fffe017f46dc93a6b67e013b029aaa1db2560b45ca67d688c7f84b8c4c791fe02b3df614f86db1690901c56b45c1530afedfb76038e972722fe7ad728f0e4904e046c230570fe9d41398abe12ef5bc942be33542a4802d98b5d70f2a332ec37fac3514e74ddc0f2cc1a874cd0c78305a21566461309789606bd0bf3f98cda8044629a10000000000000000000000000000000000000000000000000000000000000000000000000000000000000000000000000000000000000000000000000000000000000000000000000000000000000000000000000000000000000000000000000000000000000000000000000000000000000000000000000000000000000000".
Definition valid_file : string :=
  "74686973206973206e6f74206120636f6c6c6973696f6e2061747461636b0d0a".

Definition want_shambles1 : string := "4f3d9be4a472c4dae83c6314aa6c36a064c1fd14".
Definition want_shambles2 : string := "9ed5d77a4f48be1dbf3e9e15650733eb850897f2".
Definition want_valid : string := "2b915da50f163514d390c9d87a4f3e23eb663f8a".
