(** Mappings/ilcd1_to_ecs2_geographies.json, loaded by ILCD1_to_ECS2_conversion.py 1245-1246, 1268-1269. *)
From Coq Require Import Ascii String List Bool Arith NArith.
From Verif Require Import PyBase.
Import ListNotations.

Definition geographies : list (pystr * pystr) :=
  [(lit "RME", lit "fd6f25d2-7e2d-11de-9820-0019e336be3a");
   (lit "TN", lit "133fc02a-7d7e-11de-9ae2-0019e336be3a");
   (lit "BG", lit "0a46f524-7d7e-11de-9ae2-0019e336be3a");
   (lit "UN-EASIA", lit "2b57aeea-88d5-11de-99d3-0019e336be3a");
   (lit "GI", lit "10061efe-7d7e-11de-9ae2-0019e336be3a");
   (lit "RS", lit "1520c2a4-7d7e-11de-9ae2-0019e336be3a");
   (lit "IN-LD", lit "dee052a0-3714-41b6-86c0-79d062704c25");
   (lit "TR", lit "1347b0a0-7d7e-11de-9ae2-0019e336be3a");
   (lit "RFC", lit "42e6cfaf-ffa3-4f42-85bb-55e1b1c40c56");
   (lit "IN-TN", lit "eb2442cf-93eb-4784-99f9-7a0c97c3576f");
   (lit "IN-NL", lit "df16b2b2-c49e-4560-9b74-cbcbe0a8d281");
   (lit "TG", lit "1337d22a-7d7e-11de-9ae2-0019e336be3a");
   (lit "TJ", lit "13293cec-7d7e-11de-9ae2-0019e336be3a");
   (lit "KP", lit "0f0215a8-7d7e-11de-9ae2-0019e336be3a");
   (lit "GM", lit "0d7e9abc-7d7e-11de-9ae2-0019e336be3a");
   (lit "AU", lit "09b1a988-7d7e-11de-9ae2-0019e336be3a");
   (lit "MRO", lit "39185d7c-a546-424b-8605-6bc8e94e109f");
   (lit "RoW", lit "7846b897-7c04-4f9f-b607-2b83fcd9a74c");
   (lit "JP", lit "0ed905c8-7d7e-11de-9ae2-0019e336be3a");
   (lit "PL", lit "114ebb04-7d7e-11de-9ae2-0019e336be3a");
   (lit "XK", lit "ca32e3be-5acc-4486-88cf-731cdff3b9c5");
   (lit "CN-NX", lit "9e2f10b3-138f-4320-95a3-ea3853c5fbdd");
   (lit "CN-HB", lit "06bbed25-6ebe-48aa-9b92-300bddaeb2b7");
   (lit "BZ", lit "09f36814-7d7e-11de-9ae2-0019e336be3a");
   (lit "RLA", lit "09db3260-7e2a-11de-9820-0019e336be3a");
   (lit "RER w/o DE+NL+RU", lit "5c322a16-89ab-48d4-b1a2-fec5759774a3");
   (lit "JO", lit "0ef0fe6c-7d7e-11de-9ae2-0019e336be3a");
   (lit "BR-MT", lit "64441fa1-0151-47ac-b97a-1fd886b90cae");
   (lit "GY", lit "0e3b3d98-7d7e-11de-9ae2-0019e336be3a");
   (lit "CN-LN", lit "13b215dc-598a-480e-98e6-13675076ac78");
   (lit "SC", lit "12a65db8-7d7e-11de-9ae2-0019e336be3a");
   (lit "IN-GA", lit "567cc8ea-05d0-4d27-a509-89f10e1a280e");
   (lit "GLO", lit "34dbbff8-88ce-11de-ad60-0019e336be3a");
   (lit "CN-SX", lit "79abbd47-8e8b-4932-94c8-f3518ff110e9");
   (lit "IN-AS", lit "d0145549-5ad2-4cc6-8e5b-c6ed6223d2db");
   (lit "IN-AP", lit "888f6bc1-22f6-486b-b2f3-814672df6930");
   (lit "RER w/o DE+NL+NO+RU", lit "8bd484ff-ec4e-45c6-9f61-e211a872a4ff");
   (lit "UCTE without France", lit "26c31b7c-e0d1-11de-823b-0019e336be3a");
   (lit "Clipperton Island", lit "e9f525be-34b8-45b6-9c33-5daf8b97fe7c");
   (lit "BR-MG", lit "00e9e1a4-0cf8-4f07-8bad-fd782ed54382");
   (lit "WEU", lit "de74489a-e3bf-4b3a-8463-b7b9eba8a8fb");
   (lit "TK", lit "132fcda0-7d7e-11de-9ae2-0019e336be3a");
   (lit "ME", lit "101cf458-7d7e-11de-9ae2-0019e336be3a");
   (lit "Indian Ocean Territories", lit "946938ce-9c81-4a3c-a6ce-ce60a931c602");
   (lit "SERC", lit "a7b38401-afb6-4130-86f6-cd5184c6c40e");
   (lit "CN-GD", lit "fbfd6cb0-56b1-4d0b-a13f-7f9f213f9afa");
   (lit "Serranilla Bank", lit "c692fbb4-53d5-4e63-920d-361e98c90dab");
   (lit "UM", lit "10cadb86-7d7e-11de-9ae2-0019e336be3a");
   (lit "UN-NAFRICA", lit "e675a82e-88d2-11de-99d3-0019e336be3a");
   (lit "UA", lit "1387ef8a-7d7e-11de-9ae2-0019e336be3a");
   (lit "IN-MP", lit "b3d19998-fe81-4783-a19e-408d7424d876");
   (lit "Russia (Europe)", lit "1cfaa6a1-259a-442f-80ca-1070cfbbf6da");
   (lit "KI", lit "0f0882c6-7d7e-11de-9ae2-0019e336be3a");
   (lit "TC", lit "15177c76-7d7e-11de-9ae2-0019e336be3a");
   (lit "BL", lit "153e85be-7d7e-11de-9ae2-0019e336be3a");
   (lit "PH", lit "119679bc-7d7e-11de-9ae2-0019e336be3a");
   (lit "LU", lit "100cd4b0-7d7e-11de-9ae2-0019e336be3a");
   (lit "IN-KL", lit "518f1827-fe70-400e-b521-48f2f72fd777");
   (lit "CN-TJ", lit "24c6336b-e160-4d2a-8d25-ac207a66f6c1");
   (lit "BR-CE", lit "dc8836a3-1d91-49ed-b4b7-0482f7ec3eaf");
   (lit "MN", lit "0f6c1a98-7d7e-11de-9ae2-0019e336be3a");
   (lit "CA-NU", lit "1325cfa3-2b0d-487e-8d46-3e66b4b00f85");
   (lit "CN-HN", lit "9923dac7-3164-4e2f-8723-f343d998072d");
   (lit "NL", lit "10df2fe6-7d7e-11de-9ae2-0019e336be3a");
   (lit "ID", lit "14ba15f4-7d7e-11de-9ae2-0019e336be3a");
   (lit "TRE", lit "854cdfab-82bf-4c25-8515-ba33589d3efe");
   (lit "IN-DN", lit "d766dc54-3e8f-4ac4-8a0f-69707a338b33");
   (lit "PT", lit "115c647a-7d7e-11de-9ae2-0019e336be3a");
   (lit "HU", lit "0e56bc44-7d7e-11de-9ae2-0019e336be3a");
   (lit "CR", lit "0cd04f34-7d7e-11de-9ae2-0019e336be3a");
   (lit "BI", lit "0c33b64c-7d7e-11de-9ae2-0019e336be3a");
   (lit "IN-PY", lit "f7228566-0785-45da-b946-01f82d277dda");
   (lit "IAI Area, South America", lit "f3b8b2cb-5fd9-4cfc-b947-783a102c739e");
   (lit "BR-AL", lit "4c05bd06-d401-45cd-b594-c1eafa0ef95b");
   (lit "PG", lit "11663ae0-7d7e-11de-9ae2-0019e336be3a");
   (lit "AZ", lit "096781b4-7d7e-11de-9ae2-0019e336be3a");
   (lit "KG", lit "0efacce4-7d7e-11de-9ae2-0019e336be3a");
   (lit "LI", lit "0f55e480-7d7e-11de-9ae2-0019e336be3a");
   (lit "CN-HE", lit "bf7827a3-16a7-4a38-ad02-527898a12a7f");
   (lit "LC", lit "12f2d954-7d7e-11de-9ae2-0019e336be3a");
   (lit "FO", lit "0fff8e5e-7d7e-11de-9ae2-0019e336be3a");
   (lit "ZW", lit "147cde5a-7d7e-11de-9ae2-0019e336be3a");
   (lit "IN-TR", lit "001c936c-cf14-46dd-a99e-b1ef30f51c96");
   (lit "IAI Area, Africa", lit "4484cb2d-50e8-43a0-a79f-80313021306a");
   (lit "AS", lit "098df75e-7d7e-11de-9ae2-0019e336be3a");
   (lit "SS", lit "cff5fe64-d6cf-4256-8bd0-428dc0f104f6");
   (lit "BS", lit "09da334e-7d7e-11de-9ae2-0019e336be3a");
   (lit "BR-GO", lit "1a3d1ef6-b2f8-44b8-b51a-c82dec5f769b");
   (lit "WF", lit "14644bba-7d7e-11de-9ae2-0019e336be3a");
   (lit "IR", lit "0ea9e766-7d7e-11de-9ae2-0019e336be3a");
   (lit "AG", lit "09581fbc-7d7e-11de-9ae2-0019e336be3a");
   (lit "TV", lit "1351b0f0-7d7e-11de-9ae2-0019e336be3a");
   (lit "RER w/o DE+NL+NO", lit "ae85cec6-cc61-4a0d-a322-5fb10b6b4ece");
   (lit "CN-XZ", lit "c079ba9b-dc27-45f0-96b5-a3dd168de8ed");
   (lit "IN-Western grid", lit "25457a88-a525-4fd8-b73d-72fd3f37fc74");
   (lit "UN-SASIA", lit "e6d3af00-88d2-11de-99d3-0019e336be3a");
   (lit "CN-JL", lit "e58a4a8a-ca18-48d8-9023-3628de160e8e");
   (lit "BA", lit "09f7dc00-7d7e-11de-9ae2-0019e336be3a");
   (lit "IN-ML", lit "10988ebe-8be4-43c6-8451-3273ca12cd47");
   (lit "EC", lit "0d0e72a0-7d7e-11de-9ae2-0019e336be3a");
   (lit "BR-Mid-western grid", lit "6e1c02cc-e7fc-4e63-a30e-59cfa5c4d9c1");
   (lit "BR-ES", lit "5d8ac1db-f842-4688-aba1-673c4f07b1dd");
   (lit "BR", lit "0a2c8c66-7d7e-11de-9ae2-0019e336be3a");
   (lit "HK", lit "0ff7be54-7d7e-11de-9ae2-0019e336be3a");
   (lit "WECC, US only", lit "f37ced82-5df8-48c2-a207-1e36dd11a112");
   (lit "AW", lit "0fec983a-7d7e-11de-9ae2-0019e336be3a");
   (lit "AM", lit "09818690-7d7e-11de-9ae2-0019e336be3a");
   (lit "DE", lit "0e0e1020-7d7e-11de-9ae2-0019e336be3a");
   (lit "FR", lit "0d751636-7d7e-11de-9ae2-0019e336be3a");
   (lit "Spratly Islands", lit "6ba95ea2-6963-4dad-aa26-a5b45785e7f0");
   (lit "UN-EAFRICA", lit "e3daf92a-88d2-11de-99d3-0019e336be3a");
   (lit "IN-UT", lit "6859dfd7-168b-4a36-9429-e0e884bff83a");
   (lit "SPP", lit "79565b15-098f-471f-aa28-d7dd611657db");
   (lit "LY", lit "0f59bb46-7d7e-11de-9ae2-0019e336be3a");
   (lit "KR", lit "0f0f980e-7d7e-11de-9ae2-0019e336be3a");
   (lit "DJ", lit "0d0167a4-7d7e-11de-9ae2-0019e336be3a");
   (lit "FSU", lit "14a80a4c-7e2a-11de-9820-0019e336be3a");
   (lit "IN-MH", lit "14bfff77-d5a0-4ad5-9936-58636c295e99");
   (lit "YE", lit "146f1702-7d7e-11de-9ae2-0019e336be3a");
   (lit "BR-TO", lit "54e71d4b-1d1f-473d-91db-15d40c496a6d");
   (lit "EH", lit "151bdf00-7d7e-11de-9ae2-0019e336be3a");
   (lit "BY", lit "0f405034-7d7e-11de-9ae2-0019e336be3a");
   (lit "ZM", lit "147563fa-7d7e-11de-9ae2-0019e336be3a");
   (lit "BH", lit "09cf6a0e-7d7e-11de-9ae2-0019e336be3a");
   (lit "TL", lit "14fec0f0-7d7e-11de-9ae2-0019e336be3a");
   (lit "CK", lit "0cf01346-7d7e-11de-9ae2-0019e336be3a");
   (lit "BM", lit "09d5d736-7d7e-11de-9ae2-0019e336be3a");
   (lit "NE", lit "0fe7b522-7d7e-11de-9ae2-0019e336be3a");
   (lit "NF", lit "10271ce4-7d7e-11de-9ae2-0019e336be3a");
   (lit "ZA", lit "12b21766-7d7e-11de-9ae2-0019e336be3a");
   (lit "GS", lit "154830be-7d7e-11de-9ae2-0019e336be3a");
   (lit "AUS-TSM", lit "fdb06d13-ea53-4a9a-878b-7489f2bae2f7");
   (lit "OM", lit "0f980b80-7d7e-11de-9ae2-0019e336be3a");
   (lit "SG", lit "12dcac1a-7d7e-11de-9ae2-0019e336be3a");
   (lit "CA-ON", lit "1d87302d-fd96-4acb-9f9f-d3389ba929b7");
   (lit "UN-WASIA", lit "4ed30b08-88d5-11de-99d3-0019e336be3a");
   (lit "TM", lit "1356be2e-7d7e-11de-9ae2-0019e336be3a");
   (lit "CU", lit "0ce31d3a-7d7e-11de-9ae2-0019e336be3a");
   (lit "LR", lit "0f4c70f8-7d7e-11de-9ae2-0019e336be3a");
   (lit "BE", lit "0ff33cbc-7d7e-11de-9ae2-0019e336be3a");
   (lit "CW", lit "c08de0ce-64e7-4efb-a37f-8df754c262c8");
   (lit "IN-AN", lit "7661383e-998b-4738-b8dc-9e1e60070c8a");
   (lit "AE", lit "14f9e5d0-7d7e-11de-9ae2-0019e336be3a");
   (lit "LS", lit "12ba54da-7d7e-11de-9ae2-0019e336be3a");
   (lit "SK", lit "0f515f00-7d7e-11de-9ae2-0019e336be3a");
   (lit "CA-QC", lit "868a66d1-7428-4ba2-9125-253b07afc119");
   (lit "Canary Islands", lit "6a0f08e3-19ed-4748-a62f-f0920f99d65a");
   (lit "FJ", lit "0d5bcf64-7d7e-11de-9ae2-0019e336be3a");
   (lit "CN-GZ", lit "4a743c1d-f819-4398-b389-784b84de386e");
   (lit "CA-NF", lit "92618f91-5370-41d9-b5d4-6a9d60b3239f");
   (lit "IN-HR", lit "3f1442fa-0808-438c-a355-2a1e96f9adeb");
   (lit "IN-PB", lit "83cdc953-e485-453b-a8f9-749f92aca417");
   (lit "BB", lit "09d2df90-7d7e-11de-9ae2-0019e336be3a");
   (lit "CN-NM", lit "da5d7825-8e05-4bad-b026-4204389cdef3");
   (lit "LB", lit "0f35d820-7d7e-11de-9ae2-0019e336be3a");
   (lit "GD", lit "0d9a9384-7d7e-11de-9ae2-0019e336be3a");
   (lit "GR", lit "0e22b962-7d7e-11de-9ae2-0019e336be3a");
   (lit "CD", lit "0c29d73a-7d7e-11de-9ae2-0019e336be3a");
   (lit "CN-FJ", lit "7ac3c1e7-0b7d-4ff9-9aa5-0d67d7da37fa");
   (lit "MD", lit "1188faee-7d7e-11de-9ae2-0019e336be3a");
   (lit "GN", lit "0e34b6f8-7d7e-11de-9ae2-0019e336be3a");
   (lit "Asia without China", lit "b7ac8bd0-a9d4-4caf-a832-48a0f3660da7");
   (lit "KM", lit "0cc14d18-7d7e-11de-9ae2-0019e336be3a");
   (lit "BR-PB", lit "717c6f47-2eda-4d1b-8277-83f634ea7c23");
   (lit "CA", lit "0b2a8a96-7d7e-11de-9ae2-0019e336be3a");
   (lit "SX", lit "4c344fd5-a67d-412e-adb4-f3191817011f");
   (lit "SI", lit "12d0bd4c-7d7e-11de-9ae2-0019e336be3a");
   (lit "PM", lit "150dbd3a-7d7e-11de-9ae2-0019e336be3a");
   (lit "UN-EUROPE", lit "f2d812a2-e631-11de-ba56-0019e336be3a");
   (lit "MG", lit "0f6066da-7d7e-11de-9ae2-0019e336be3a");
   (lit "RNA", lit "0fecb5e8-7e2a-11de-9820-0019e336be3a");
   (lit "BR-AM", lit "12e2f855-d67d-492c-b59d-12205eeb79ea");
   (lit "BQ", lit "cef71bbd-ab04-4959-ac3b-89a0c55e2e8c");
   (lit "RE", lit "117d1850-7d7e-11de-9ae2-0019e336be3a");
   (lit "CENTREL", lit "fd95ae8c-7e2d-11de-9820-0019e336be3a");
   (lit "NPCC, US only", lit "50f826e7-ab13-444e-987b-180701b691c9");
   (lit "CA-NB", lit "b8ce14f4-e09b-4117-b4dd-d74af99da744");
   (lit "IL", lit "0eb3bcbe-7d7e-11de-9ae2-0019e336be3a");
   (lit "IN-GJ", lit "0d325613-94aa-4a65-8014-d3f6ead19eb3");
   (lit "IN-OR", lit "bf61f94b-cbd6-4a41-9c8b-0ef2b4e06c3c");
   (lit "RER w/o RU", lit "e6a1bb9b-c1f3-49ed-a64b-87d488244ef9");
   (lit "PE", lit "11387d6c-7d7e-11de-9ae2-0019e336be3a");
   (lit "WS", lit "14679ce8-7d7e-11de-9ae2-0019e336be3a");
   (lit "MZ", lit "0fc883d2-7d7e-11de-9ae2-0019e336be3a");
   (lit "AX", lit "1023d322-7d7e-11de-9ae2-0019e336be3a");
   (lit "ML", lit "0f7d8030-7d7e-11de-9ae2-0019e336be3a");
   (lit "RER w/o CH+DE", lit "5d5718f2-ee74-462a-888c-be4d534ef542");
   (lit "UN-SAMERICA", lit "1ae80e7c-e5e3-11de-a739-0019e336be3a");
   (lit "UN-OCEANIA", lit "9232290c-e62b-11de-ba56-0019e336be3a");
   (lit "UN-ASIA", lit "d509536a-7e28-11de-9820-0019e336be3a");
   (lit "CY", lit "0cf40280-7d7e-11de-9ae2-0019e336be3a");
   (lit "Dhekelia Base", lit "0fe2ebfb-0eb4-4f42-8ec4-628d26f61f77");
   (lit "TZ", lit "13615776-7d7e-11de-9ae2-0019e336be3a");
   (lit "BW", lit "12bee8d8-7d7e-11de-9ae2-0019e336be3a");
   (lit "KY", lit "0cb02330-7d7e-11de-9ae2-0019e336be3a");
   (lit "SJ", lit "152d7e40-7d7e-11de-9ae2-0019e336be3a");
   (lit "Canada without Alberta", lit "39c8f992-22b7-4d59-9be0-eb461b36df2f");
   (lit "IN-CH", lit "1b5afe13-e071-4c8a-81b5-68eb8982053f");
   (lit "AUS-ACT", lit "96e0124a-b1b0-4303-b26c-44ee5857f3a1");
   (lit "KH", lit "0c0d5768-7d7e-11de-9ae2-0019e336be3a");
   (lit "SZ", lit "146af956-7d7e-11de-9ae2-0019e336be3a");
   (lit "CN-HU", lit "2a19941e-dd11-44b4-919f-fb33c9150b71");
   (lit "UN-MICRONESIA", lit "26bf514e-e62c-11de-ba56-0019e336be3a");
   (lit "JM", lit "0eed3c64-7d7e-11de-9ae2-0019e336be3a");
   (lit "CI", lit "0ec6dff6-7d7e-11de-9ae2-0019e336be3a");
   (lit "ASCC", lit "a9c3be27-affe-464c-8ebf-996d8ab6a958");
   (lit "Europe without Switzerland and France", lit "6a1e0054-4990-4d43-b7e4-e3d9a595a275");
   (lit "MX", lit "0fa9a53e-7d7e-11de-9ae2-0019e336be3a");
   (lit "IN", lit "0e6a7860-7d7e-11de-9ae2-0019e336be3a");
   (lit "CS", lit "4eb91d59-44f6-4ec6-9f21-0c48bcf3becf");
   (lit "KZ", lit "0f1fdb74-7d7e-11de-9ae2-0019e336be3a");
   (lit "Europe without Switzerland", lit "f9221622-cc45-11de-98ed-0019e336be3a");
   (lit "HN", lit "0e4809f6-7d7e-11de-9ae2-0019e336be3a");
   (lit "ET", lit "0d3920fe-7d7e-11de-9ae2-0019e336be3a");
   (lit "BR-RJ", lit "862723a2-2563-490a-9b7a-7206cb46fcb1");
   (lit "Cyprus No Mans Area", lit "4aa2a59b-aed0-4438-9db4-960357820659");
   (lit "CA-YK", lit "29dca13b-9d4b-4714-9c80-1808b9127dda");
   (lit "IN-HP", lit "763ca99d-f561-45ef-8d36-84cb877f9c08");
   (lit "IN-Southern grid", lit "8a80d1d2-de76-44e0-a3d3-46b98c053ca1");
   (lit "LA", lit "0f2f07ac-7d7e-11de-9ae2-0019e336be3a");
   (lit "MA", lit "0f848e98-7d7e-11de-9ae2-0019e336be3a");
   (lit "BR-SP", lit "a7ba1868-375a-4d62-9048-bdf2136447c4");
   (lit "RW", lit "129718da-7d7e-11de-9ae2-0019e336be3a");
   (lit "Siachen Glacier", lit "3dc3c9af-74a3-472e-8af9-070146a3eec9");
   (lit "CL", lit "0c852cde-7d7e-11de-9ae2-0019e336be3a");
   (lit "DM", lit "0d04edb6-7d7e-11de-9ae2-0019e336be3a");
   (lit "IN-Northern grid", lit "59003ab7-b40a-43ac-b7c9-3e3e8907803e");
   (lit "IN-BR", lit "5ba6d534-2083-4167-975d-84579c9e5202");
   (lit "AUS-SAS", lit "c2bb7d7f-6242-4b3c-98cd-62b03f7a8be3");
   (lit "CX", lit "10c7c482-7d7e-11de-9ae2-0019e336be3a");
   (lit "GG", lit "1541988a-7d7e-11de-9ae2-0019e336be3a");
   (lit "UN-POLYNESIA", lit "4d22983c-e62c-11de-ba56-0019e336be3a");
   (lit "AUS-VCT", lit "7441e29d-0a88-49fa-8ce4-eeb7f1949f2f");
   (lit "GB", lit "13725fee-7d7e-11de-9ae2-0019e336be3a");
   (lit "IQ", lit "0ecd6952-7d7e-11de-9ae2-0019e336be3a");
   (lit "NAFTA", lit "047116e2-d932-11de-9627-0019e336be3a");
   (lit "BR-South-eastern grid", lit "df7d08ae-6f20-4095-96e6-3d9cc6f49263");
   (lit "Akrotiri", lit "7abf336a-09c3-487b-bdc3-989bbe50ee05");
   (lit "AO", lit "098771a4-7d7e-11de-9ae2-0019e336be3a");
   (lit "MC", lit "1013310c-7d7e-11de-9ae2-0019e336be3a");
   (lit "BJ", lit "0a13f5c0-7d7e-11de-9ae2-0019e336be3a");
   (lit "NZ", lit "11258d1a-7d7e-11de-9ae2-0019e336be3a");
   (lit "PN", lit "150266d8-7d7e-11de-9ae2-0019e336be3a");
   (lit "BF", lit "1420c7f0-7d7e-11de-9ae2-0019e336be3a");
   (lit "MF", lit "153b614a-7d7e-11de-9ae2-0019e336be3a");
   (lit "TH", lit "131dd2ee-7d7e-11de-9ae2-0019e336be3a");
   (lit "DO", lit "0d083d04-7d7e-11de-9ae2-0019e336be3a");
   (lit "SAS", lit "30e68c9c-7e2a-11de-9820-0019e336be3a");
   (lit "IN-DL", lit "de26c625-ae68-4c9e-8fde-a6c33b3dfe14");
   (lit "IN-UP", lit "ae2be714-8cbe-4abd-afac-a5e7ca2b0d55");
   (lit "PA", lit "115546c2-7d7e-11de-9ae2-0019e336be3a");
   (lit "UN-CAMERICA", lit "fc467bec-d8f0-11de-b1d3-0019e336be3a");
   (lit "BR-BA", lit "929f1a52-bb4d-4a86-8439-6b01d8813196");
   (lit "IO", lit "10c45112-7d7e-11de-9ae2-0019e336be3a");
   (lit "BR-Southern grid", lit "dd2330a8-30dc-4af9-bb3a-d2d2bf404dde");
   (lit "IT", lit "0ebb28b4-7d7e-11de-9ae2-0019e336be3a");
   (lit "VN", lit "144e6f5c-7d7e-11de-9ae2-0019e336be3a");
   (lit "CA-MB", lit "aae610ca-cdef-4c81-9631-ded55d455444");
   (lit "GU", lit "0e1a52e0-7d7e-11de-9ae2-0019e336be3a");
   (lit "IAI Area, West Europe", lit "dc8d48a0-e8ab-494f-a2a2-270ef43cef95");
   (lit "SE", lit "1301c428-7d7e-11de-9ae2-0019e336be3a");
   (lit "UN-CARIBBEAN", lit "87b165cf-8b3c-4289-807e-4512b4fb2b2f");
   (lit "CN-SD", lit "2b2ddda2-bb8e-42f7-82e5-013cc04f7bc5");
   (lit "CA-SK", lit "e3aa6506-9887-4e27-9102-b3671e430090");
   (lit "AF", lit "0c608726-7d7e-11de-9ae2-0019e336be3a");
   (lit "MT", lit "0f9402ce-7d7e-11de-9ae2-0019e336be3a");
   (lit "FI", lit "0d512a50-7d7e-11de-9ae2-0019e336be3a");
   (lit "CM", lit "0cb47d54-7d7e-11de-9ae2-0019e336be3a");
   (lit "CC", lit "102a1b92-7d7e-11de-9ae2-0019e336be3a");
   (lit "IS", lit "0e5d5856-7d7e-11de-9ae2-0019e336be3a");
   (lit "HICC", lit "598f9aa4-e409-11de-bce5-0019e336be3a");
   (lit "GH", lit "0d95a34c-7d7e-11de-9ae2-0019e336be3a");
   (lit "MS", lit "0f759550-7d7e-11de-9ae2-0019e336be3a");
   (lit "FK", lit "0d627bf2-7d7e-11de-9ae2-0019e336be3a");
   (lit "North America without Quebec", lit "aab06382-a476-4bec-a78b-d2fc0b849980");
   (lit "QA", lit "117936fe-7d7e-11de-9ae2-0019e336be3a");
   (lit "IN-RJ", lit "4024933b-d7a2-4ebb-87dc-80460ff13c50");
   (lit "CN-JX", lit "f5c62675-f6ae-4bc4-8c9b-3b737ef2ea53");
   (lit "CN-XJ", lit "e8a978ab-a183-4ce7-b791-760190d8a63c");
   (lit "BR-RR", lit "2a7e9ed2-4de5-4b28-9b4e-b12c50a1ed53");
   (lit "MV", lit "0f9f2f00-7d7e-11de-9ae2-0019e336be3a");
   (lit "PS", lit "1019325a-7d7e-11de-9ae2-0019e336be3a");
   (lit "CN-ZJ", lit "a959ec4b-3db6-4b9f-9ea6-897fbcfdc610");
   (lit "LT", lit "0f46d4ea-7d7e-11de-9ae2-0019e336be3a");
   (lit "BR-SC", lit "4645f771-3596-4c42-ba0f-822d1ce2fb72");
   (lit "SN", lit "12c6a37a-7d7e-11de-9ae2-0019e336be3a");
   (lit "IN-Islands", lit "4a07e727-a1e5-4079-8433-b1d2b5ed544c");
   (lit "IN-North-eastern grid", lit "26e353a9-dac6-4123-833d-75cd720d9e19");
   (lit "NP", lit "110f1ea4-7d7e-11de-9ae2-0019e336be3a");
   (lit "GE", lit "0d8feaa6-7d7e-11de-9ae2-0019e336be3a");
   (lit "MP", lit "0ffb63d8-7d7e-11de-9ae2-0019e336be3a");
   (lit "MRO, US only", lit "6432879f-dc31-4e80-bc55-573f72dafee8");
   (lit "UN-MAFRICA", lit "e60b420e-88d2-11de-99d3-0019e336be3a");
   (lit "CA-PE", lit "b5b34218-bee7-4196-b70c-1b5ad433801a");
   (lit "HT", lit "0e422e82-7d7e-11de-9ae2-0019e336be3a");
   (lit "AT", lit "0d3f4416-7d7e-11de-9ae2-0019e336be3a");
   (lit "DK", lit "0cf950f0-7d7e-11de-9ae2-0019e336be3a");
   (lit "TD", lit "0cbbba9c-7d7e-11de-9ae2-0019e336be3a");
   (lit "GW", lit "11738740-7d7e-11de-9ae2-0019e336be3a");
   (lit "WECC", lit "3af78f04-f008-43fd-8e29-dccfba3075c7");
   (lit "UN-WAFRICA", lit "e89dc6f4-88d2-11de-99d3-0019e336be3a");
   (lit "SD", lit "12f773b0-7d7e-11de-9ae2-0019e336be3a");
   (lit "YT", lit "10207fa6-7d7e-11de-9ae2-0019e336be3a");
   (lit "IN-CT", lit "89f88c37-befd-49fa-92ad-35875a6709eb");
   (lit "CA-NS", lit "8cd8dbae-aa08-44b0-be67-6ed7e876cedd");
   (lit "SB", lit "0a1ab78e-7d7e-11de-9ae2-0019e336be3a");
   (lit "NA", lit "145e04ee-7d7e-11de-9ae2-0019e336be3a");
   (lit "UN-SEUROPE", lit "57c8c52c-88d5-11de-99d3-0019e336be3a");
   (lit "AUS-NSW", lit "ee4baa34-3c79-4919-9393-c5d8a9015674");
   (lit "MH", lit "15099fa2-7d7e-11de-9ae2-0019e336be3a");
   (lit "RAF", lit "2f693dc6-7e28-11de-9820-0019e336be3a");
   (lit "BR-Northern grid", lit "572aa631-8a25-4c16-b437-2ee0672c450d");
   (lit "BR-RO", lit "d9497730-f613-4d31-aab2-1d82add2d1bc");
   (lit "VG", lit "14480004-7d7e-11de-9ae2-0019e336be3a");
   (lit "Qu" ++ [233%N] ++ lit "bec, HQ distribution network", lit "c231d8f9-39e9-408c-9884-8508b8f9baf7");
   (lit "EEU", lit "11636ae9-23c9-4477-9e10-f4bc2767ebff");
   (lit "TT", lit "1317a572-7d7e-11de-9ae2-0019e336be3a");
   (lit "GT", lit "0e2fbd60-7d7e-11de-9ae2-0019e336be3a");
   (lit "Russia (Asia)", lit "6d696e3b-ac91-486c-8f04-349c496915ae");
   (lit "AUS-QNS", lit "3624a72f-ca5a-48d6-be41-27e705be5b61");
   (lit "CN-SH", lit "4a15b2ab-5593-48d7-a7b9-b1c07c5ca99b");
   (lit "AR", lit "09951f84-7d7e-11de-9ae2-0019e336be3a");
   (lit "BV", lit "10b7703c-7d7e-11de-9ae2-0019e336be3a");
   (lit "GL", lit "0dc048d6-7d7e-11de-9ae2-0019e336be3a");
   (lit "SM", lit "15146d88-7d7e-11de-9ae2-0019e336be3a");
   (lit "VU", lit "10cf3776-7d7e-11de-9ae2-0019e336be3a");
   (lit "LK", lit "0c13823c-7d7e-11de-9ae2-0019e336be3a");
   (lit "TW", lit "154d2934-7d7e-11de-9ae2-0019e336be3a");
   (lit "GP", lit "14f2285e-7d7e-11de-9ae2-0019e336be3a");
   (lit "IN-WB", lit "77849b53-31ea-4b25-93e5-451909753ad3");
   (lit "IN-JH", lit "2221b78c-5a1c-454c-a637-744d54a0bbe9");
   (lit "CN-QH", lit "06422af3-6431-4f6f-a555-7c0e008bce8b");
   (lit "NORDEL", lit "fe0113e8-7e2d-11de-9820-0019e336be3a");
   (lit "NI", lit "111cdba2-7d7e-11de-9ae2-0019e336be3a");
   (lit "NPCC", lit "d48cee40-0ff1-49d6-a80d-9e0be3e0c2f6");
   (lit "MO", lit "10105c52-7d7e-11de-9ae2-0019e336be3a");
   (lit "IAI Area, North America", lit "446707ca-ceb0-4e24-b794-73e95e6154c0");
   (lit "GQ", lit "0d245584-7d7e-11de-9ae2-0019e336be3a");
   (lit "IN-KA", lit "c23d9dc6-d794-4775-8e92-ee830a084a7f");
   (lit "CN-SC", lit "1238ec0d-4167-453a-9ec5-50cfef0782a1");
   (lit "SO", lit "12e2e22e-7d7e-11de-9ae2-0019e336be3a");
   (lit "SH", lit "1510fb80-7d7e-11de-9ae2-0019e336be3a");
   (lit "UN-AMERICAS", lit "2ea604e6-e5e8-11de-8102-0019e336be3a");
   (lit "SY", lit "130d4f28-7d7e-11de-9ae2-0019e336be3a");
   (lit "IAI Area, Russia & RER w/o EU27 & EFTA", lit "0fc981f0-eb14-436c-834f-c6ce005a4dc4");
   (lit "CN-YN", lit "f41e84aa-2c80-451e-a7ab-594acc1b096d");
   (lit "BR-AC", lit "251a2d08-d031-4589-9318-029ba543abde");
   (lit "CH", lit "131278d6-7d7e-11de-9ae2-0019e336be3a");
   (lit "IM", lit "1009d666-7d7e-11de-9ae2-0019e336be3a");
   (lit "IN-SK", lit "01c44dfa-113d-427b-81b9-1d4fde230f93");
   (lit "RER w/o AT+BE+CH+DE+FR+IT", lit "c428af56-39c0-4dca-a617-8716b52a6640");
   (lit "CA-BC", lit "533c318c-a189-4fc6-84a8-e9d48eab987c");
   (lit "UN-AUSTRALIANZ", lit "fb4bde60-e62b-11de-ba56-0019e336be3a");
   (lit "BR-RN", lit "8cd18b82-fdd2-4cf9-87c8-33e125b675f4");
   (lit "Scarborough Reef", lit "aa97629e-e94b-4270-a042-979d38785ecd");
   (lit "SV", lit "0d349e44-7d7e-11de-9ae2-0019e336be3a");
   (lit "SGCC", lit "4c9baec2-f9fc-4f36-84f7-a3ed2eab82a1");
   (lit "GF", lit "0d4ac2be-7d7e-11de-9ae2-0019e336be3a");
   (lit "VC", lit "1436d536-7d7e-11de-9ae2-0019e336be3a");
   (lit "IN-MZ", lit "cab4fbd7-e8ae-4ea6-9e74-0e41df667c61");
   (lit "CN-HA", lit "dd10b4f5-3c51-4c62-9b32-a111e15e3e52");
   (lit "MM", lit "0a06dd7c-7d7e-11de-9ae2-0019e336be3a");
   (lit "CN-HL", lit "0f7b1e31-0d0b-404a-994b-e3cd1b7586f0");
   (lit "BR-MA", lit "6eaa35ce-47d2-4c3d-9079-12adc7ffb375");
   (lit "AL", lit "097c2556-7d7e-11de-9ae2-0019e336be3a");
   (lit "AUS-WAS", lit "0ae22e97-4563-473f-9209-3221544a097f");
   (lit "Northern Cyprus", lit "92f428e3-0631-408a-bb78-7cc010f272ca");
   (lit "SR", lit "1117f7f4-7d7e-11de-9ae2-0019e336be3a");
   (lit "CV", lit "0cec2628-7d7e-11de-9ae2-0019e336be3a");
   (lit "ES", lit "12ea642c-7d7e-11de-9ae2-0019e336be3a");
   (lit "CN-GS", lit "d5231e2f-479b-4f21-9173-35beeaf2406a");
   (lit "BR-PI", lit "70c9eee0-7dc4-4e2f-8dcc-f6bc4358ead9");
   (lit "DZ", lit "095ec4f2-7d7e-11de-9ae2-0019e336be3a");
   (lit "Bajo Nuevo", lit "43c4f591-2b61-4145-a9f6-e10b4349c2cd");
   (lit "BD", lit "09e8ed3a-7d7e-11de-9ae2-0019e336be3a");
   (lit "JE", lit "1544d680-7d7e-11de-9ae2-0019e336be3a");
   (lit "BR-MS", lit "23baa40a-53e2-4d6c-a61e-a412c2b7aaae");
   (lit "IAI Area, North America, without Quebec", lit "4a81aea7-bf37-4c83-ac1e-9a2050f88920");
   (lit "AI", lit "0fefde28-7d7e-11de-9ae2-0019e336be3a");
   (lit "BR-DF", lit "c65371a5-fd9a-4ca9-ae24-c4fde6615445");
   (lit "EE", lit "0d28a62a-7d7e-11de-9ae2-0019e336be3a");
   (lit "RO", lit "11813638-7d7e-11de-9ae2-0019e336be3a");
   (lit "UN-EEUROPE", lit "50ec320c-88d5-11de-99d3-0019e336be3a");
   (lit "NG", lit "10d6bc3a-7d7e-11de-9ae2-0019e336be3a");
   (lit "IAI Area, Asia, without China and GCC", lit "77b2f7ee-3f79-4946-a2d7-50c46d1756d2");
   (lit "Europe without NORDEL (NCPA)", lit "a2d4e588-e0d1-11de-823b-0019e336be3a");
   (lit "AUS-NTR", lit "dbee0af4-00e0-4280-a377-414d0a39998e");
   (lit "NC", lit "0fdb5bec-7d7e-11de-9ae2-0019e336be3a");
   (lit "BR-PE", lit "a64ba70d-b110-4f81-b415-299c0c193faa");
   (lit "CN", lit "0c40fa1e-7d7e-11de-9ae2-0019e336be3a");
   (lit "IN-Eastern grid", lit "1eb1f8b3-8c35-425e-94ca-cf502eb004c3");
   (lit "CN-GX", lit "c6b0afc2-8321-49aa-81f3-a793417eed91");
   (lit "IN-MN", lit "d6bf166c-b5aa-45a6-b0e9-7c169d2c7cbc");
   (lit "CG", lit "0c193b28-7d7e-11de-9ae2-0019e336be3a");
   (lit "KN", lit "12a2ee3a-7d7e-11de-9ae2-0019e336be3a");
   (lit "NO", lit "10f1ec30-7d7e-11de-9ae2-0019e336be3a");
   (lit "MK", lit "0f78e944-7d7e-11de-9ae2-0019e336be3a");
   (lit "Europe, without Russia and Turkey", lit "c670b4a0-6051-4935-bafe-866736a010a9");
   (lit "BT", lit "0c67c0cc-7d7e-11de-9ae2-0019e336be3a");
   (lit "IE", lit "0d1de104-7d7e-11de-9ae2-0019e336be3a");
   (lit "UN-NEUROPE", lit "548bd19c-88d5-11de-99d3-0019e336be3a");
   (lit "LV", lit "0f3a36f4-7d7e-11de-9ae2-0019e336be3a");
   (lit "SA", lit "129c6a88-7d7e-11de-9ae2-0019e336be3a");
   (lit "BR-PR", lit "3b2c2140-c25c-47c5-876d-78e5dc82f066");
   (lit "UCTE without Germany", lit "dde7310e-e0d0-11de-823b-0019e336be3a");
   (lit "BR-AP", lit "744e0bff-1149-4c95-bea7-74792bc71a21");
   (lit "KE", lit "0ef4e126-7d7e-11de-9ae2-0019e336be3a");
   (lit "ST", lit "133bfb7a-7d7e-11de-9ae2-0019e336be3a");
   (lit "IAI Area, EU27 & EFTA", lit "b7fcfda9-0add-49aa-87d4-d60f3bda4283");
   (lit "UCTE without Germany and France", lit "088a91da-e0cc-11de-823b-0019e336be3a");
   (lit "EG", lit "0d168940-7d7e-11de-9ae2-0019e336be3a");
   (lit "BO", lit "09fd4f82-7d7e-11de-9ae2-0019e336be3a");
   (lit "AQ", lit "105b361e-7d7e-11de-9ae2-0019e336be3a");
   (lit "France, including overseas territories", lit "28d52c97-56c5-4bcd-9504-ccc5b4797c67");
   (lit "PR", lit "11a7c1a4-7d7e-11de-9ae2-0019e336be3a");
   (lit "IN-JK", lit "d8cc1385-8b61-4509-8db0-d9cb5fa95725");
   (lit "VE", lit "143d4e2a-7d7e-11de-9ae2-0019e336be3a");
   (lit "UY", lit "14266b60-7d7e-11de-9ae2-0019e336be3a");
   (lit "ENTSO-E", lit "f87aa98c-d820-11de-a736-0019e336be3a");
   (lit "FRCC", lit "dfd92cab-e7c7-4ca8-8abc-2fb6fd064dbc");
   (lit "Guantanamo Bay", lit "f557e57c-b331-4ed4-b103-cb9a167c71b0");
   (lit "UCTE", lit "ce1503be-7060-4959-8387-bc3ea3f4c885");
   (lit "SL", lit "12d57c60-7d7e-11de-9ae2-0019e336be3a");
   (lit "Coral Sea Islands", lit "2267ada9-09f7-4fc9-a93f-5b1e0086107e");
   (lit "CN-BJ", lit "a7cf4239-43f5-4256-ae84-e94595cbaac6");
   (lit "HR", lit "0e4ef37e-7d7e-11de-9ae2-0019e336be3a");
   (lit "HM", lit "10c0fae4-7d7e-11de-9ae2-0019e336be3a");
   (lit "NR", lit "11148498-7d7e-11de-9ae2-0019e336be3a");
   (lit "CO", lit "0cc6c45a-7d7e-11de-9ae2-0019e336be3a");
   (lit "Canada without Alberta and Quebec", lit "ae9d0b20-e4e3-4cd3-9699-63eca5319c9b");
   (lit "BR-North-eastern grid", lit "3ece4ff8-55ae-40b2-baea-0d2bf2034fbf");
   (lit "Canada without Quebec", lit "a4d7d7fd-94ae-4f44-91ba-53cd7f79bac4");
   (lit "PW", lit "1505b46e-7d7e-11de-9ae2-0019e336be3a");
   (lit "Central Asia", lit "23ccc3fe-88d5-11de-99d3-0019e336be3a");
   (lit "GA", lit "0d8399c2-7d7e-11de-9ae2-0019e336be3a");
   (lit "US", lit "13d387f6-7d7e-11de-9ae2-0019e336be3a");
   (lit "BN", lit "0a4bff9c-7d7e-11de-9ae2-0019e336be3a");
   (lit "UZ", lit "142f54c8-7d7e-11de-9ae2-0019e336be3a");
   (lit "UN-SEASIA", lit "4aff9c9e-88d5-11de-99d3-0019e336be3a");
   (lit "UG", lit "13685c7e-7d7e-11de-9ae2-0019e336be3a");
   (lit "IN-DD", lit "653869da-6e3f-476e-9380-19d23040f2b9");
   (lit "BR-PA", lit "9a205fd8-72f3-423f-b3a7-6b805aaee30b");
   (lit "TO", lit "13335286-7d7e-11de-9ae2-0019e336be3a");
   (lit "MY", lit "0fbd80a4-7d7e-11de-9ae2-0019e336be3a");
   (lit "Ashmore and Cartier Islands", lit "4a271c88-5c3c-42de-9bee-1e950cc9d9f5");
   (lit "IN-AR", lit "28388907-7605-469a-b28d-cdc8f963b28b");
   (lit "AD", lit "10033c48-7d7e-11de-9ae2-0019e336be3a");
   (lit "MU", lit "0f8a5012-7d7e-11de-9ae2-0019e336be3a");
   (lit "CN-JS", lit "dc5987d0-7a19-4843-82f1-15708e106edb");
   (lit "CN-CQ", lit "8bc809e8-f246-46f7-bf1f-93e34e06befd");
   (lit "CN-SA", lit "232efb31-1dd5-4d00-87a8-5fa631021c17");
   (lit "MQ", lit "0f671a66-7d7e-11de-9ae2-0019e336be3a");
   (lit "BALTSO", lit "d4c8443a-d821-11de-b50d-0019e336be3a");
   (lit "CSG", lit "5b64ff1c-3c47-4adf-b89c-9e18078b9bf7");
   (lit "PK", lit "11430eee-7d7e-11de-9ae2-0019e336be3a");
   (lit "CA-NT", lit "5fb3ee97-3981-4918-b09a-4de1b1fdb517");
   (lit "TF", lit "10bb74b6-7d7e-11de-9ae2-0019e336be3a");
   (lit "Somaliland", lit "6d7964cb-db0a-4b40-b975-b5d4d6bdb331");
   (lit "IAI Area, Gulf Cooperation Council", lit "058885d6-d0a9-48ff-8d95-4baacf75ce97");
   (lit "UN-MELANESIA", lit "13fd916a-e62c-11de-ba56-0019e336be3a");
   (lit "KW", lit "0f16e870-7d7e-11de-9ae2-0019e336be3a");
   (lit "PF", lit "0d6d36be-7d7e-11de-9ae2-0019e336be3a");
   (lit "CN-AH", lit "2f82cf2a-d2e0-4be3-b60c-399bfe93d403");
   (lit "ER", lit "0d2ed0a4-7d7e-11de-9ae2-0019e336be3a");
   (lit "MR", lit "0f8e6c2e-7d7e-11de-9ae2-0019e336be3a");
   (lit "RAS", lit "19c7cdd2-e590-11de-9dfe-0019e336be3a");
   (lit "RU", lit "12143bfe-7d7e-11de-9ae2-0019e336be3a");
   (lit "VI", lit "14599396-7d7e-11de-9ae2-0019e336be3a");
   (lit "FM", lit "0d684cbc-7d7e-11de-9ae2-0019e336be3a");
   (lit "CA-AB", lit "6bf93cce-7c23-463e-9962-898efa030fa2");
   (lit "VA", lit "15265aa2-7d7e-11de-9ae2-0019e336be3a");
   (lit "MW", lit "0fd0c588-7d7e-11de-9ae2-0019e336be3a");
   (lit "CZ", lit "0d45a5d6-7d7e-11de-9ae2-0019e336be3a");
   (lit "RER", lit "0723d252-7e2a-11de-9820-0019e336be3a");
   (lit "CF", lit "0cd759a0-7d7e-11de-9ae2-0019e336be3a");
   (lit "NU", lit "0fe1621c-7d7e-11de-9ae2-0019e336be3a");
   (lit "BR-RS", lit "2248c6cf-f68d-4dac-85bb-fac7e80064f6");
   (lit "PY", lit "11311298-7d7e-11de-9ae2-0019e336be3a");
   (lit "BR-SE", lit "17a40e27-7f28-48c3-892d-6121e748ed01")].
(** dict.get *)
Fixpoint lookup (x : pystr) (l : list (pystr * pystr)) : option pystr :=
  match l with [] => None | (k, v) :: l' => if str_eqb x k then Some v else lookup x l' end.
Definition geography_id (x : pystr) : option pystr := lookup x geographies.
