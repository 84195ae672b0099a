(** ILCD to EcoSpold2: the exchanges of a process and the flow data sets they refer to
    (ILCD1_to_ECS2_conversion.py 393-424, 430-606, 608-703, 706-760, 787-798, 985-1062, 1501-1514, 1932-1937; units.py 392-414). *)
From Coq Require Import Ascii String List Bool Arith NArith ZArith.
From Verif Require Import PyBase PyValues MultiLangModel DotDictModel XmlModel UtilsModel ConverterModel.
Import ListNotations.
Local Open Scope string_scope.
Local Open Scope list_scope.

Definition krefflow : pystr := lit "referenceToFlowDataSet".
Definition krefprop : pystr := lit "referenceToFlowPropertyDataSet".
Definition kobject : pystr := lit "@refObjectId".
Definition kdescription : pystr := lit "shortDescription".
Definition kinternal : pystr := lit "@dataSetInternalID".
Definition kcomment : pystr := lit "generalComment".
(** [x.get(k, default)] *)
Definition get_or (k : pystr) (default x : pyval) : result pyval :=
  match x with
  | VDict d => Ok (match getf k d with Some v => v | None => default end)
  | _ => Err AttributeError
  end.
(** A text with its language; the index (C79) is left out. *)
Definition note := (pyval * pystr)%type.

(** units.py 392-414 [ilcd_to_ecs2_un]: flow property, unit id, unit name, in the order of the source; the third entries of the
    two energy rows ('NET', 'GROSS') are left out *)
Definition un_table : list (pystr * (pystr * pystr)) :=
  map (fun r => (lit (fst r), (lit (fst (snd r)), lit (snd (snd r)))))
  [("1acf7c0f-aa9d-4022-a4b7-fe0b54ea0b91", ("329b50e2-c594-39e9-953c-04c61d81d61e", "Items*a"));
   ("01846770-4cfe-4a25-8ad9-919d8d378345", ("5b972631-34e3-4db7-a615-f6931770a0cb", "unit"));
   ("93a60a56-a3c8-11da-a746-0800200c9a66", ("980b811e-3905-4797-82a5-173f5568bc7e", "MJ"));
   ("93a60a56-a3c8-14da-a746-0800200c9a66", ("980b811e-3905-4797-82a5-173f5568bc7e", "MJ"));
   ("93a60a56-a3c8-22da-a746-0800200c9a66", ("de5b3c87-0e35-4fb0-9765-4f3ba34c99e5", "m3"));
   ("838aaa20-0117-11db-92e3-0800200c9a66", ("2f4daad7-5331-4f14-930c-d8bca924557d", "metric ton*km"));
   ("838aaa23-0117-11db-92e3-0800200c9a66", ("f2aaa4ba-fb58-49a7-a552-e7f64366f379", "m"));
   ("1cc347a0-3bd1-46db-a308-2707c68d2351", ("0e6f38bc-51be-4382-802d-1f389a88e589", "person*km"));
   ("93a60a56-a3c8-17da-a746-0800200c9a66", ("4923348e-591b-4772-b224-d19df86f04c9", "kBq"));
   ("93a60a56-a3c8-19da-a746-0800200c9a66", ("1017f68a-f818-4f9d-a34d-a31e7386f628", "m2"));
   ("93a60a56-a3c8-21da-a746-0800200c9a66", ("eb955b7c-7bed-401f-9c76-5db716ca3640", "m2*year"));
   ("441238a3-ba09-46ec-b35b-c30cfba746d1", ("481b9712-c417-44f1-bfba-38d58088173c", "m3*year"));
   ("93a60a56-a3c8-11da-a746-0800200b9a66", ("487df68b-4994-4027-8fdc-a4dc298257b7", "kg"));
   ("c0447923-0e60-4b3c-97c2-a86dddd9eea5", ("05af3809-c874-4611-a6e9-6c296385ec5d", "day"));
   ("e07b4169-bd86-4337-8fa6-1f76916475bf", ("8266bd67-ebd3-4d31-b972-eee3cf0da36f", "m*year"));
   ("f170abd3-f010-45f4-8e7c-9871a5c0421b", ("ca2f7f9a-ae4e-3c80-9388-b7bc26a8bf4d", "mol"));
   ("371b6515-6488-399b-9364-b9125dcf5ef2", ("ff8ed45d-bbfb-4531-8c7b-9b95e52bd41d", "m3*km"));
   ("specific_dimensionless", ("ef6ecb4d-863b-4cee-adb4-95076bded0a1", "dimensionless"));
   ("67b63204-ef91-44b2-a927-2f4ead1fae17", ("7b75baf0-cbee-45e6-bf66-af119da06553", "EUR2005"));
   ("b3f0f892-c5a3-4c66-a432-c09e3d1e9bd6", ("241450a3-3497-4648-8c68-e44d04f64ac7", "kg*day"));
   ("93a60a56-a3c8-13da-a746-0800200c9a66", ("de5b3c87-0e35-4fb0-9765-4f3ba34c99e5", "m3"))].

(** units.py 422-: a row of [ilcd_to_ecs2_fp]: unit id, unit, property id, property name, and the properties per kg
    and per m3 *)
Record fp_row := FpRow { f_uid : pystr; f_unit : pystr; f_pid : pystr; f_pname : pystr;
                         f_mass : option (pystr * pystr); f_volume : option (pystr * pystr) }.
(** units.py 422-706 [ilcd_to_ecs2_fp], in the order of the source *)
Definition fp_source : list (string * ((string * string) * (string * string) * option (string * string) * option (string * string))) :=
  [("67b63204-ef91-44b2-a927-2f4ead1fae17", (("7b75baf0-cbee-45e6-bf66-af119da06553", "EUR2005"), ("38f94dd1-d5aa-41b8-b182-c0c42985d9dc", "price"), None, None));
   ("9b784a67-fbb1-4ad2-8774-30c39643b844", (("980b811e-3905-4797-82a5-173f5568bc7e", "MJ"), ("48c987bb-3144-4872-b5c7-b1389c40be25", "heating value, net"), None, None));
   ("93a60a56-a3c8-14da-a746-0800200c9a66", (("980b811e-3905-4797-82a5-173f5568bc7e", "MJ"), ("d61b8768-8ef6-4a99-ae16-9e51f24ad5b5", "heating value, gross"), None, None));
   ("93a60a56-a3c8-11da-a746-0800200c9a66", (("980b811e-3905-4797-82a5-173f5568bc7e", "MJ"), ("48c987bb-3144-4872-b5c7-b1389c40be25", "heating value, net"), None, None));
   ("f2149ae0-b105-4299-b1f1-cf1fd1577867", (("577e242a-461f-44a7-922c-d8e1c3d2bf45", "dimensionless"), ("e1d2c19b-3a97-4f52-a83f-fe88400452c2", "chromium content"), Some ("ed229b01-1b3f-4754-8871-5e88a83f3725", "concentration, chromium"), Some ("bca4bb32-f701-46bb-ba1e-bad477c19f7f", "mass concentration, chromium")));
   ("ac557972-7563-49fb-8461-29a4fe8600b7", (("577e242a-461f-44a7-922c-d8e1c3d2bf45", "dimensionless"), ("a17f5864-6177-4619-82c5-3426c8c64e7d", "gallium content"), None, Some ("35d16e49-9e29-4e1d-ac22-ea7f84fb76e1", "mass concentration, gallium")));
   ("b1192e5a-4a70-4fd7-89a2-6b798c7ed3a7", (("577e242a-461f-44a7-922c-d8e1c3d2bf45", "dimensionless"), ("66e996b5-5f7b-449f-8893-0b787af21d7e", "cobalt content"), None, Some ("2f7030b9-bafc-4b43-8504-deb8b5044130", "mass concentration, cobalt")));
   ("a5278d68-2936-477b-b9de-7ad2d66422ec", (("577e242a-461f-44a7-922c-d8e1c3d2bf45", "dimensionless"), ("995265a2-f2cb-4c12-a961-766eb34392b9", "strontium content"), None, Some ("d574cc22-07f2-4202-b564-1116ab197692", "mass concentration, strontium")));
   ("dd77d131-c2ee-4d5a-b5d3-f7aa981ae305", (("577e242a-461f-44a7-922c-d8e1c3d2bf45", "dimensionless"), ("35d2e0b2-eca5-4897-a6af-b6d2e61a9079", "scandium content"), None, Some ("1325d7f9-2fe2-4226-9304-ad9e5371e08f", "mass concentration, scandium")));
   ("435e1d0e-e36e-4d4a-9cd1-7fd2c135da61", (("577e242a-461f-44a7-922c-d8e1c3d2bf45", "dimensionless"), ("4054bfa7-dfcb-452e-b1dd-810b9e981506", "antimony content"), None, Some ("3759d833-560a-4dbb-949e-afc63c0ade26", "mass concentration, antimony")));
   ("c2a5d679-93be-44a1-b82f-da986e622ab9", (("577e242a-461f-44a7-922c-d8e1c3d2bf45", "dimensionless"), ("0b27405b-3e4d-45aa-bb5c-3c52d2b04e0e", "europium content"), None, Some ("a7e81e5c-d3b9-421c-bf6f-7cafcf911ab7", "mass concentration, europium")));
   ("7eb6e3cb-0c12-4216-99b5-2032906d42ca", (("577e242a-461f-44a7-922c-d8e1c3d2bf45", "dimensionless"), ("94b2be61-35f2-40fb-b9ab-636ae5a0415b", "lanthanum content"), None, Some ("d33e6732-d2f8-4441-ba03-e39d4a1228a5", "mass concentration, lanthanum")));
   ("fec15e58-109a-4775-bc6f-72ca0b9b3cee", (("577e242a-461f-44a7-922c-d8e1c3d2bf45", "dimensionless"), ("a301a838-7975-4d89-9e74-8eb77ad03cd1", "carbon content"), None, Some ("a301a838-7975-4d89-9e74-8eb77ad03cd1", "mass concentration, carbone dioxide")));
   ("64b8e725-b0ba-4837-abb9-62dc0e7b9f6f", (("577e242a-461f-44a7-922c-d8e1c3d2bf45", "dimensionless"), ("c74c3729-e577-4081-b572-a283d2561a75", "carbon content, fossil"), None, None));
   ("62e503ce-544a-4599-b2ad-bcea15a7bf20", (("577e242a-461f-44a7-922c-d8e1c3d2bf45", "dimensionless"), ("6393c14b-db78-445d-a47b-c0cb866a1b25", "carbon content, non-fossil"), None, None));
   ("b539c404-ce19-43fb-ba14-6a1bdd46d8be", (("577e242a-461f-44a7-922c-d8e1c3d2bf45", "dimensionless"), ("4fb17587-2c03-4b4e-b38b-867cfd4bfae8", "praseodymium content"), None, Some ("1ced5983-2a7b-49af-b6cd-ad4ebaafba89", "mass concentration, praseodymium")));
   ("76d611d0-a0a5-43d5-b391-a4e7ec463052", (("577e242a-461f-44a7-922c-d8e1c3d2bf45", "dimensionless"), ("f9da385d-5b1b-4548-826c-0bf5892a9fd9", "calcium content"), Some ("cea619b8-1a76-4680-8b55-cdf682a3b32a", "concentration, calcium"), Some ("ddbab0d1-b156-41bc-98e5-fb680285d7cd", "mass concentration, calcium")));
   ("984505b9-8536-4e31-a312-0d1a3788f009", (("577e242a-461f-44a7-922c-d8e1c3d2bf45", "dimensionless"), ("66d4c921-658a-4ba0-b190-c6e09e57d74a", "chlorine content"), None, Some ("468e50e8-1960-4eba-bc1a-a9938a301694", "mass concentration, chlorine")));
   ("3da87ad0-733e-4ca9-b234-75ef52ca2a2d", (("577e242a-461f-44a7-922c-d8e1c3d2bf45", "dimensionless"), ("86937b4e-c531-4ce5-b65e-ce0d17d3ca27", "holmium content"), None, Some ("f0e05731-4b64-4a8a-a216-a7ad908d76bc", "mass concentration, holmium")));
   ("085af809-5dc6-4920-aaa1-4ac493ae4af8", (("577e242a-461f-44a7-922c-d8e1c3d2bf45", "dimensionless"), ("f53a5dbc-3bd3-4570-adff-b00790ea3ffc", "nitrogen content"), Some ("cf66b969-7413-4ee7-aaf1-8a3b47904836", "concentration, nitrogen"), Some ("f04a971d-f503-4ca0-b2b1-0ecd2e53ea61", "mass concentration, nitrogen")));
   ("2e4695ff-d6a5-42c2-9816-6dbd6c859707", (("577e242a-461f-44a7-922c-d8e1c3d2bf45", "dimensionless"), ("8daf1327-bd94-4903-8e7b-5fe7731a259b", "radium content"), None, Some ("1ae79861-a8a8-4118-aa6b-eb93351f315b", "mass concentration, radium")));
   ("f3e1017d-1aa3-4763-b563-9494858e1ec7", (("577e242a-461f-44a7-922c-d8e1c3d2bf45", "dimensionless"), ("2d23d1bb-e137-4ade-83fc-fbd0421e6cd5", "hydrogen content"), None, Some ("40a28310-9574-4867-88fb-623fa7ed1fa3", "mass concentration, hydrogen")));
   ("078ecf46-26d6-47e3-8128-fcced884d1cd", (("577e242a-461f-44a7-922c-d8e1c3d2bf45", "dimensionless"), ("fe9f0d92-ecdf-4e72-bd20-fadd3b6175bf", "germanium content"), None, Some ("76b0b954-ae61-4ac8-a585-700724fd53a6", "mass concentration, germanium")));
   ("0bb4f3ac-2944-4263-8587-ea6eac2d24ac", (("577e242a-461f-44a7-922c-d8e1c3d2bf45", "dimensionless"), ("48b2521b-63f6-4121-9c3f-8edef7b31fc5", "rhenium content"), None, Some ("cf6fc65c-b941-4211-89c8-ec3aec00b076", "mass concentration, rhenium")));
   ("5db5be2d-8df6-432b-ab3d-ffde49d3fe7f", (("577e242a-461f-44a7-922c-d8e1c3d2bf45", "dimensionless"), ("1dcfb203-7830-40b2-878d-13fc02a74051", "barium content"), None, Some ("33976f6b-2575-4410-8f60-d421bdf3e554", "mass concentration, barium")));
   ("9bb58775-7ba8-41a7-8818-f75af4f5fe39", (("577e242a-461f-44a7-922c-d8e1c3d2bf45", "dimensionless"), ("832bb926-0c7d-4b16-bf36-fc69665afe8b", "platinum content"), None, Some ("9adea776-5feb-432f-8f16-34d78ed99306", "mass concentration, platinum")));
   ("71fc82ec-9eb9-424a-bc45-053a844c8af9", (("577e242a-461f-44a7-922c-d8e1c3d2bf45", "dimensionless"), ("7e83fd10-c04d-4a80-8df2-a8bbcc268c4a", "selenium content"), None, Some ("c35265a9-fd3e-468c-af8e-f4e020c38fc0", "mass concentration, selenium")));
   ("7eb51190-01f0-40a0-801d-b5c588272314", (("577e242a-461f-44a7-922c-d8e1c3d2bf45", "dimensionless"), ("aaedfd5e-a9ce-4257-a015-93ef483fed8c", "krypton content"), None, Some ("4e0d51e1-8833-45e8-bd22-48292c8c93b8", "mass concentration, krypton")));
   ("d58f03c0-feab-4e47-aef6-4394aecc72dd", (("577e242a-461f-44a7-922c-d8e1c3d2bf45", "dimensionless"), ("fbc58d8d-0a4c-4eb0-a14a-fafef222bafc", "lutetium content"), None, Some ("b142feef-d230-4376-aee7-919bbebed59a", "mass concentration, lutetium")));
   ("d7882bb5-cb4e-4ef6-84d8-1e1b75de022c", (("577e242a-461f-44a7-922c-d8e1c3d2bf45", "dimensionless"), ("fb2ccf7c-73c6-4d43-a3c7-26fda1423f18", "neon content"), None, Some ("6b7d0b77-c97b-4a8a-b4c5-f70836484a84", "mass concentration, neon")));
   ("697fbcb6-b516-4c2f-a78e-5ec2ffaec4b3", (("577e242a-461f-44a7-922c-d8e1c3d2bf45", "dimensionless"), ("4583f86d-51fa-4fda-9c75-7fba827532f5", "caesium content"), None, Some ("807a3833-37fa-4606-9023-25d4e9eb0158", "mass concentration, caesium")));
   ("dccec68c-c1c9-42e4-9fa9-42dbb943082d", (("577e242a-461f-44a7-922c-d8e1c3d2bf45", "dimensionless"), ("ad7781c7-5dc2-4421-b182-e1fd4cef7fa5", "cadmium content"), Some ("2382a305-44cb-479c-a43d-f759f7689a9d", "concentration, cadmium"), Some ("1111ac7e-20df-4ab4-9e02-57821894372c", "mass concentration, cadmium")));
   ("5c39e9a9-4bb5-42cd-b519-0db3a940a575", (("577e242a-461f-44a7-922c-d8e1c3d2bf45", "dimensionless"), ("44454aa6-3e54-4bb3-850c-9011a7257985", "ruthenium content"), None, Some ("edb5885b-2292-4889-9221-ab7012ea5595", "mass concentration, ruthenium")));
   ("2ea4d465-87e3-4f85-81a0-2bd661639f4e", (("577e242a-461f-44a7-922c-d8e1c3d2bf45", "dimensionless"), ("72ca3df5-6d2a-4a64-9fdf-d976136e4167", "yttrium content"), None, Some ("5b7203d0-4a12-43e3-a2de-d9000584a5c6", "mass concentration, yttrium")));
   ("d07d61ac-df46-4e74-bd49-3260c7b5fb89", (("577e242a-461f-44a7-922c-d8e1c3d2bf45", "dimensionless"), ("30fd0072-a0d4-4b5b-ad3e-dbd50a227ba5", "protactinium content"), None, Some ("a3ca4324-b23e-489e-a799-b50ef9ed2e4e", "mass concentration, protactinium")));
   ("699b6a73-e8d5-4755-8d1d-b70de4b9efdd", (("577e242a-461f-44a7-922c-d8e1c3d2bf45", "dimensionless"), ("97f3bbfe-fa3a-4d05-9cb6-bb4b6379c5ef", "phosphorus content"), Some ("449f4414-9f9f-4b76-8bfb-f170052555ab", "concentration, phophorus"), Some ("8e73d3fb-bb81-4c42-bfa6-8be4ff13125d", "mass concentration, phophorus")));
   ("d703ed04-22ca-4151-85ae-da1fcf54df68", (("577e242a-461f-44a7-922c-d8e1c3d2bf45", "dimensionless"), ("d8135201-fa30-4332-a051-7eddb3f8f8ed", "niobium content"), None, Some ("6a158827-67f6-4c5e-ba04-3da10718fc21", "mass concentration, niobium")));
   ("61ec59a5-3816-4e5a-88c7-acf8a8b33d41", (("577e242a-461f-44a7-922c-d8e1c3d2bf45", "dimensionless"), ("56f09738-8225-4bdc-91d2-39ee6328f0ee", "silver content"), Some ("26ec2bdf-c4d7-4ed4-a751-5cfa97d2b26b", "concentration, silver"), Some ("dcdc6c7b-0b72-4174-bc90-f51ed66426d5", "mass concentration, silver")));
   ("184c9c12-32fb-4252-a484-9952928b8473", (("577e242a-461f-44a7-922c-d8e1c3d2bf45", "dimensionless"), ("d0a2c761-50ab-4c1d-a37b-525409640a76", "indium content"), Some ("dfe0e5ee-314c-4fac-9a75-c96aa63ec3b5", "concentration, indium"), Some ("cbffa34c-c6de-4836-abfe-c6b94b99655a", "mass concentration, indium")));
   ("476dbccb-c1e5-4cdb-aa14-f4ef627c45ec", (("577e242a-461f-44a7-922c-d8e1c3d2bf45", "dimensionless"), ("1f3c2d02-f345-4df9-ba6a-88cdeaa67923", "fluorine content"), None, Some ("763a698f-54d7-4e2a-84a7-9cc8c0271b6a", "mass concentration, fluorine")));
   ("1e6e8252-dae9-4b4a-866c-c6c3a5e810a1", (("577e242a-461f-44a7-922c-d8e1c3d2bf45", "dimensionless"), ("fdafa860-c059-437e-838d-9d151b2067b3", "thulium content"), None, Some ("9210d4a4-402c-475a-b354-94a8263632eb", "mass concentration, thulium")));
   ("d6b6a36c-58b3-48c7-b723-392a6df4754f", (("577e242a-461f-44a7-922c-d8e1c3d2bf45", "dimensionless"), ("e9688cbc-7400-457a-a936-5ab123ea326c", "aluminium content"), None, Some ("77154d2e-4b05-48f2-a89a-789acd170497", "mass concentration, aluminium")));
   ("24a07e87-aa12-4f9c-8c40-580e9bf7a2f2", (("577e242a-461f-44a7-922c-d8e1c3d2bf45", "dimensionless"), ("da9aed81-4e0a-4a15-9d5e-27020d826a01", "zirconium content"), None, Some ("2dd01d14-3b27-4a66-9308-2ab96e6bcbd0", "mass concentration, zirconium")));
   ("7ec8d70e-4ffc-4024-86b7-6141cc0a2bf5", (("577e242a-461f-44a7-922c-d8e1c3d2bf45", "dimensionless"), ("a9358458-9724-4f03-b622-106eda248916", "water content"), None, None));
   ("827934c0-561e-402c-82f2-f04765d180e5", (("577e242a-461f-44a7-922c-d8e1c3d2bf45", "dimensionless"), ("e66d61f6-8287-4cf1-bb0c-f978ee5e34b3", "bismuth content"), None, Some ("26e0e131-cb29-4602-9cce-ecaaf1ffd8d4", "mass concentration, bismuth")));
   ("83040211-0076-4862-b172-79ce62b71187", (("577e242a-461f-44a7-922c-d8e1c3d2bf45", "dimensionless"), ("bf4d71d9-4301-4939-8a9d-36d8811b7db0", "beryllium content"), None, Some ("d21c7c5c-b2c2-43ae-8575-c377cc0b0495", "mass concentration, beryllium")));
   ("78b712c9-7f07-467f-b085-efee6067871b", (("577e242a-461f-44a7-922c-d8e1c3d2bf45", "dimensionless"), ("bbf35356-1757-4287-a72c-ae2bb1753731", "osmium content"), None, Some ("1a3f7490-7944-4d5a-ae87-4133cd0f6eec", "mass concentration, osmium")));
   ("85aa9476-64fb-4c86-bc01-0c656b479cb8", (("577e242a-461f-44a7-922c-d8e1c3d2bf45", "dimensionless"), ("db0b4bbf-fd26-4ba2-b9de-0fd47476304f", "lithium content"), None, Some ("c0dd146d-4b11-4b59-bd42-01ab280d6342", "mass concentration, lithium")));
   ("11f31f00-f6fa-4ef0-a9e3-5bd37199dd20", (("577e242a-461f-44a7-922c-d8e1c3d2bf45", "dimensionless"), ("d8551abf-da96-4429-846b-0973136b7d48", "tin content"), None, Some ("ff888459-10c3-4700-afce-3a024aaf89cf", "mass concentration, tin")));
   ("25c2946d-2b1f-4245-b2aa-80c037912665", (("577e242a-461f-44a7-922c-d8e1c3d2bf45", "dimensionless"), ("b181bebd-539c-49bc-810e-9a443060afbc", "thorium content"), None, Some ("b41681b0-87c1-4333-8eae-045ec68fe0c2", "mass concentration, thorium")));
   ("f18a0b1c-59ec-4c76-ae20-bc6c522547b3", (("577e242a-461f-44a7-922c-d8e1c3d2bf45", "dimensionless"), ("8aaa7771-015a-4c28-8291-afa3342dbfbe", "tellurium content"), None, Some ("3a0030f4-0585-487f-84fb-c6f3fa283ade", "mass concentration, tellurium")));
   ("f33b22c4-e0e7-4fa6-ae2b-246ecb0a16eb", (("577e242a-461f-44a7-922c-d8e1c3d2bf45", "dimensionless"), ("f767b36f-62bf-4458-b694-ecbefd2ab970", "nickel content"), Some ("70da437b-65cd-498b-a980-7a6b8bc2f525", "concentration, nickel"), Some ("8b574e85-ff07-46bf-a753-f1271299dcf7", "mass concentration, nickel")));
   ("77f40806-2c54-4050-97d3-d1b61eb4b0c9", (("577e242a-461f-44a7-922c-d8e1c3d2bf45", "dimensionless"), ("b86d456d-a1dc-4468-a20e-b6a3f4701e32", "boron content"), None, Some ("c0447419-7139-44fe-a855-ea71e2b78585", "mass concentration, boron")));
   ("bd9b36ca-8240-464a-bba0-01c5210a5b66", (("577e242a-461f-44a7-922c-d8e1c3d2bf45", "dimensionless"), ("8aedc313-f49b-42cd-8d54-fc877ec03017", "magnesium content"), Some ("fcc233d5-ea53-4b90-9e2c-5624032a4b95", "concentration, magnesium"), Some ("d26c0a60-86aa-41c8-80ee-3acabc4a5095", "mass concentration, magnesium")));
   ("e1b01126-0456-41b5-a29a-d6bd5095b64b", (("577e242a-461f-44a7-922c-d8e1c3d2bf45", "dimensionless"), ("d3c0b420-1906-478c-8812-acfe6bf40c2e", "sodium content"), None, Some ("7b656e1b-bc07-41cd-bad4-a5b51b6287da", "mass concentration, sodium")));
   ("0ac18236-1ef4-4d67-95c0-4aebfec7f470", (("577e242a-461f-44a7-922c-d8e1c3d2bf45", "dimensionless"), ("ea0dd556-455f-4524-b594-785505f1c0af", "cerium content"), None, Some ("cc72d858-3a21-481e-8013-55a53976ffc2", "mass concentration, cerium")));
   ("e57088b8-0313-45c4-b791-6fdfbb59a142", (("577e242a-461f-44a7-922c-d8e1c3d2bf45", "dimensionless"), ("82728b89-48ab-4da6-9bad-faeb8ce02d1a", "samarium content"), None, Some ("d271dd60-df24-4dbe-b447-7f059810a0f3", "mass concentration, samarium")));
   ("d55035e1-5a9a-44c5-88ce-d20086ab7148", (("577e242a-461f-44a7-922c-d8e1c3d2bf45", "dimensionless"), ("a91695f7-22e8-4b39-bd05-56aacab09a87", "neodymium content"), None, Some ("5ec6019b-0773-4119-9d96-ed9355eaad80", "mass concentration, neodymium")));
   ("7cc6f031-f747-49e0-9600-ce2a2fe5657e", (("577e242a-461f-44a7-922c-d8e1c3d2bf45", "dimensionless"), ("dba83ee6-9127-4c81-86c9-15e29987dcdf", "vanadium content"), None, Some ("0b686a86-c506-4ad3-81fd-c3f39f05247d", "mass concentration, vanadium")));
   ("83c2eede-677e-43ec-98c8-1d801c7f1774", (("577e242a-461f-44a7-922c-d8e1c3d2bf45", "dimensionless"), ("59d14f7c-d6ea-4770-af4a-aa3dd6538b98", "xenon content"), None, Some ("28841901-be10-4b4c-b077-228b4de6e7b1", "mass concentration, xenon")));
   ("33cf4d9a-bcbf-4fe4-926b-38f2c3e36278", (("577e242a-461f-44a7-922c-d8e1c3d2bf45", "dimensionless"), ("43e30a6f-82ee-4f81-b799-e835163c8dcd", "tantalum content"), None, Some ("6c113912-2ae5-4dea-99ea-1f0ebfe39c31", "mass concentration, tantalum")));
   ("b1dd578a-f16a-4eaa-ae08-442aa2a1a2de", (("577e242a-461f-44a7-922c-d8e1c3d2bf45", "dimensionless"), ("22ca28a0-51e6-4f82-9ae7-b6c22a59abb9", "helium content"), None, Some ("2584546f-187b-4a1d-b246-0af9d354b46b", "mass concentration, helium")));
   ("1d85ab50-ed1e-4421-b3b8-c5197d858a0d", (("577e242a-461f-44a7-922c-d8e1c3d2bf45", "dimensionless"), ("cd5814c6-01ff-4fe8-b4bc-225084393eb2", "argon content"), None, Some ("da1ed753-c185-4631-9cec-45d09fcec8f4", "mass concentration, argon")));
   ("a0f29f45-108a-4aef-8a66-aef07ed34913", (("577e242a-461f-44a7-922c-d8e1c3d2bf45", "dimensionless"), ("d8364dfc-5753-4585-bf50-4d42b126f72d", "iron content"), Some ("effa47e4-3d54-4e54-8b92-223b790f544a", "concentration, iron"), Some ("ebf21bca-b7cf-45d0-9d82-bfb80519a970", "mass concentration, iron")));
   ("e02ff80b-c3f1-4d9d-b33a-f8c3001c70b8", (("577e242a-461f-44a7-922c-d8e1c3d2bf45", "dimensionless"), ("92dbd49f-8cf0-4510-b9c0-6b90443b328e", "rhodium content"), None, Some ("d8d0d9e1-d98a-4adb-ad4d-de0bb2a1deb3", "mass concentration, rhodium")));
   ("e8b9419c-c36e-445f-a3a9-ace79156ac30", (("577e242a-461f-44a7-922c-d8e1c3d2bf45", "dimensionless"), ("e092deec-37ab-4f20-ad74-1460544a9911", "erbium content"), None, Some ("630eb01c-d5ad-45b2-896f-9228a893e6d8", "mass concentration, erbium")));
   ("7c367337-54f2-4fe9-8ee3-3f42681b0792", (("577e242a-461f-44a7-922c-d8e1c3d2bf45", "dimensionless"), ("33f96fe7-39da-47ca-837f-f2c311681d1b", "zinc content"), Some ("253644d1-9ec6-4373-bda4-afbdd248d5b1", "concentration, zinc"), Some ("6cc518c8-4769-40df-b2cf-03f9fe00b759", "mass concentration, zinc")));
   ("aaa95528-e05d-4eb4-85ff-a5445b580dcc", (("577e242a-461f-44a7-922c-d8e1c3d2bf45", "dimensionless"), ("dbf41b1b-c7b8-4d5e-b39c-f858eb868df5", "oxygen content"), None, Some ("decbd998-dc69-4964-9f82-8b9d9ca93e91", "mass concentration, oxygen")));
   ("b8ef5a2b-ed75-4497-a061-1ecbbd79a380", (("577e242a-461f-44a7-922c-d8e1c3d2bf45", "dimensionless"), ("6b093a42-84fe-41a1-8488-0fb444a5cf9d", "uranium content"), None, Some ("a4d1b0a4-a4ef-429e-9fab-6dd6ea142c37", "mass concentration, uranium")));
   ("2651cd57-1c24-4b8e-856b-ddb63a3b267e", (("577e242a-461f-44a7-922c-d8e1c3d2bf45", "dimensionless"), ("2a256b0b-6003-4669-a3c1-1d3eba2de45e", "mercury content"), Some ("adafb091-8daa-4bc9-b302-98aa221ff337", "concentration, mercury"), Some ("a102e6f8-ebc7-450b-a39b-794be96558b7", "mass concentration, mercury")));
   ("b7be6dba-97f0-42f6-b173-e2c6b042fbe7", (("577e242a-461f-44a7-922c-d8e1c3d2bf45", "dimensionless"), ("f6c7ebbb-902a-412f-a55b-0743aea00238", "sulfur content"), Some ("2d99e421-b9bd-4e09-98e4-f09478190a9b", "concentration, sulfur"), Some ("7f3410da-b91e-40d8-9545-ab269ff66900", "mass concentration, sulfur")));
   ("d4f76a48-d1c9-4c49-a46e-b61feb974ac4", (("577e242a-461f-44a7-922c-d8e1c3d2bf45", "dimensionless"), ("6b90d16b-f20b-4b53-abc2-763f9455dc05", "bromine content"), None, Some ("e4504511-88b5-4b01-a537-e049f056668c", "mass concentration, bromine")));
   ("825ef2f3-f706-4c47-8f8d-ee9ddbab3b43", (("577e242a-461f-44a7-922c-d8e1c3d2bf45", "dimensionless"), ("84916b80-bf93-4e20-9b7c-593aa9518d09", "tungsten content"), None, Some ("058d6d50-172b-4a8a-97da-0cee759eca7d", "mass concentration, tungsten")));
   ("fa94ba11-2720-441d-b432-a2774f3ab1ad", (("577e242a-461f-44a7-922c-d8e1c3d2bf45", "dimensionless"), ("ee301bc4-052a-40c2-a5d7-76fa6e429aa5", "gold content"), None, Some ("3e1978a6-47f8-4e31-8a83-79053a0e715e", "mass concentration, gold")));
   ("6827435e-8ad9-44c1-b0b4-b26f321957b1", (("577e242a-461f-44a7-922c-d8e1c3d2bf45", "dimensionless"), ("ca949a93-0642-4d1d-83bf-52faf10f2329", "potassium content"), Some ("e38c9209-6934-4445-b180-675bcbd5ad7a", "concentration, potassium"), Some ("8b49eeb7-9caf-4101-b516-eb0aef30d530", "mass concentration, potassium")));
   ("b8a29b5f-1e7e-4f15-881f-e802e42551eb", (("577e242a-461f-44a7-922c-d8e1c3d2bf45", "dimensionless"), ("608190bf-8f74-4f8e-8544-f25377accf4d", "thallium content"), None, Some ("79baac3d-9e62-45ef-8f41-440dea32f11f", "mass concentration, thallium")));
   ("02f11c31-4bb8-41de-81fb-fb479f361eb9", (("577e242a-461f-44a7-922c-d8e1c3d2bf45", "dimensionless"), ("b3026066-b632-4c47-a27e-c13f4a3489fb", "iodine content"), None, Some ("e9164ff3-fd2d-4050-895d-0e0a42317be2", "mass concentration, iodine")));
   ("282882cf-a5e5-4170-82dd-8e84da2724d2", (("577e242a-461f-44a7-922c-d8e1c3d2bf45", "dimensionless"), ("e9fa11a1-1011-421d-aa34-0544d767a632", "titanium content"), None, Some ("abc78955-bd5f-4b1a-9607-0448dd75ebf2", "mass concentration, titanium")));
   ("cefa9508-86b9-4fad-824e-bbf9d6fdd6f9", (("577e242a-461f-44a7-922c-d8e1c3d2bf45", "dimensionless"), ("30f0aa15-2d50-4f09-af94-683b6dd68adc", "arsenic content"), None, Some ("b321f120-4db7-4e7c-a196-82a231023052", "mass concentration, arsenic")));
   ("ab654e01-766b-411b-8902-cd6a9c40e55e", (("577e242a-461f-44a7-922c-d8e1c3d2bf45", "dimensionless"), ("999af43a-1a83-4231-ba3c-600b1941b3a0", "palladium content"), None, Some ("98f985da-d0b2-4325-af0c-9e421a2ba950", "mass concentration, palladium")));
   ("0ab79a5f-7fd7-4d5d-be55-559292c958d3", (("577e242a-461f-44a7-922c-d8e1c3d2bf45", "dimensionless"), ("0132d97c-5f19-4397-9197-59ab801b10cf", "copper content"), Some ("9a08745d-e89e-477c-81a9-2ea81a44547c", "concentration, copper"), Some ("e7451d8a-77af-44e0-86cf-ccd17ac84509", "mass concentration, copper")));
   ("92f2d417-544a-4fd1-bde7-25967ef93586", (("577e242a-461f-44a7-922c-d8e1c3d2bf45", "dimensionless"), ("83f67a9e-bf78-4e0d-b1f0-5051a1fda9fe", "molybdenum content"), None, Some ("aa897226-0a91-40e5-aa05-4bae3b9e4213", "mass concentration, molybdenum")));
   ("037f9009-8b06-470d-a190-21448f7921c7", (("577e242a-461f-44a7-922c-d8e1c3d2bf45", "dimensionless"), ("e5507d89-78ad-4746-900c-b9afa5a62ea6", "lead content"), Some ("69394b67-d859-4887-a7a2-64dec0ecdbd8", "concentration, lead"), Some ("71bc04b9-abfe-4f30-ab8f-ba654c7ad296", "mass concentration, lead")));
   ("935e0cbe-3369-4537-8019-4157cf929304", (("577e242a-461f-44a7-922c-d8e1c3d2bf45", "dimensionless"), ("ff25f3c3-5f43-4ac0-bb13-d8ecc6fc7b75", "terbium content"), None, Some ("291c5be3-dd62-4e12-a0bd-48c3e694169a", "mass concentration, terbium")));
   ("5a2556bf-a9ec-4720-9253-d40f1de3c2b8", (("577e242a-461f-44a7-922c-d8e1c3d2bf45", "dimensionless"), ("2bc683e4-3780-4f00-8c1d-fd53e05cfde7", "manganese content"), None, Some ("8d27623b-147c-44e8-93cc-2183eac22991", "mass concentration, manganese")));
   ("0b12d18f-0c7c-44da-8c52-dc3278f917c7", (("577e242a-461f-44a7-922c-d8e1c3d2bf45", "dimensionless"), ("65387d28-9b09-44d2-9908-663c18b740a3", "ytterbium content"), None, Some ("71ff1af9-6834-46e8-b392-e73cbe898dae", "mass concentration, ytterbium")));
   ("e4225227-7855-41ce-ba57-a5314fdcdcf1", (("577e242a-461f-44a7-922c-d8e1c3d2bf45", "dimensionless"), ("f576f1a0-d669-4063-9309-82c4af778bb4", "gadolinium content"), None, Some ("ed62dbf5-82e7-4432-ac6a-9be3172c41fd", "mass concentration, gadolinium")));
   ("607a33e0-28ed-42f8-ac8c-66f0c9700e56", (("577e242a-461f-44a7-922c-d8e1c3d2bf45", "dimensionless"), ("dd7e15dc-c438-43f7-9c0d-d0a627163cf1", "silicon content"), None, Some ("67065577-4705-4ece-a892-6dd1d7ecd1e5", "mass concentration, silicon")));
   ("98eec5a0-44db-411a-a502-95139090bc61", (("577e242a-461f-44a7-922c-d8e1c3d2bf45", "dimensionless"), ("0650a63d-be1c-49b6-94c5-d0dc2acc35d6", "iridium content"), None, Some ("e629f248-28bc-40c8-a7e8-f1c216e7eb1d", "mass concentration, iridium")))].
Definition lit2 (p : string * string) : pystr * pystr := (lit (fst p), lit (snd p)).
Definition fp_table : list (pystr * fp_row) :=
  map (fun r => match snd r with
                | (u, p, m, v) => (lit (fst r), FpRow (lit (fst u)) (lit (snd u)) (lit (fst p)) (lit (snd p))
                                                      (option_map lit2 m) (option_map lit2 v))
                end) fp_source.
(** a row of the mapping of elementary flows *)
Record target := Target { t_map : pystr; t_id : pystr; t_name : pystr; t_context : pystr; t_factor : pystr; t_unit : pystr }.
(** a row of the master data of properties (430-451) *)
Record md_row := MdRow { d_name : pystr; d_unit : pystr; d_amount : pystr; d_defining : pystr; d_comment : pystr }.

(** 997-1015: the elements looked up in a flow data set, and the properties (598) *)
Definition kftype : pystr := lit "/flowDataSet/modellingAndValidation/LCIMethod/typeOfDataSet".
Definition kfname : pystr := lit "/flowDataSet/flowInformation/dataSetInformation/name/baseName".
Definition kfcas : pystr := lit "/flowDataSet/flowInformation/dataSetInformation/CASNumber".
Definition kfformula : pystr := lit "/flowDataSet/flowInformation/dataSetInformation/sumFormula".
Definition kfref : pystr := lit "/flowDataSet/flowInformation/quantitativeReference/referenceToReferenceFlowProperty".
Definition flow_keys : list pystr := [kftype; kfname; kfcas; kfformula; kfref].
Definition kfprop : pystr := lit "/flowDataSet/flowProperties/flowProperty".
Record info := Info { i_type : option pyval; i_names : option (list pyval); i_cas : option pyval; i_formula : option pyval;
                      i_ref : option pyval }.
Definition no_info : info := Info None None None None None.
Definition info_step (i : info) (kt : pystr * pyval) : result info :=
  if str_eqb (fst kt) kftype then Ok (Info (Some (snd kt)) (i_names i) (i_cas i) (i_formula i) (i_ref i))
  else if str_eqb (fst kt) kfname then
    bind (ensure_list (snd kt) true) (fun l =>
    Ok (Info (i_type i) (Some (match i_names i with Some l0 => l0 | None => [] end ++ l)) (i_cas i) (i_formula i) (i_ref i)))
  else if str_eqb (fst kt) kfcas then Ok (Info (i_type i) (i_names i) (Some (snd kt)) (i_formula i) (i_ref i))
  else if str_eqb (fst kt) kfformula then Ok (Info (i_type i) (i_names i) (i_cas i) (Some (snd kt)) (i_ref i))
  else Ok (Info (i_type i) (i_names i) (i_cas i) (i_formula i) (Some (snd kt))).
Fixpoint info_steps (i : info) (l : list (pystr * pyval)) : result info :=
  match l with [] => Ok i | kt :: r => bind (info_step i kt) (fun i' => info_steps i' r) end.

Section Inflow.
  (** Numbers: [float(...)] of a value, and the arithmetic of pint. *)
  Context (num : Type) (to_num : pyval -> result num) (one zero : num) (add sub div : num -> num -> num) (is_zero : num -> bool).
  (** 402-403, 410-412, 463-464: the uncertainty and the variable of an exchange or property, described elsewhere
      (C82, C84-C86, C103-C106): whether they can be read. *)
  Context (more : pyval -> result unit).
  (** The language of the data set (helpers.py 50). *)
  Context (language : pyval).

  (** helpers.py 44-50 [text_add_index] *)
  Definition add_note (prefix : pystr) (x : pyval) : result note :=
    match x with
    | VStr s => Ok (VStr (lit "en"), prefix ++ s)
    | VDict d => match getf ktext d with
                 | Some (VStr s) => Ok (match getf klang d with Some l => l | None => language end, prefix ++ s)
                 | Some _ => Err TypeError
                 | None => Err KeyError
                 end
    | _ => Err AttributeError
    end.
  Definition comments (x : pyval) : result (list note) :=
    bind (get_or kcomment (VDict []) x) (fun c => bind (ensure_list c true) (fun l => mapM (add_note []) l)).

  (** ** 393-424 [__init__] *)
  (** 407-409 *)
  Definition extra_names : list string := ["location"; "functionType"; "dataSourceType"; "dataDerivationTypeStatus"].
  Definition extra (x : pyval) (n : string) : result (list note) :=
    bind (get_or (lit n) (VStr []) x) (fun v =>
    match v with
    | VStr [] => Ok []
    | _ => bind (add_note (lit n ++ lit ": ") v) (fun c => Ok [c])
    end).
  (** 399 *)
  Definition flow_name (r : pyval) : result pyval :=
    bind (sub_item kdescription r) (fun s => bind (ensure_list s true) (fun l =>
    match l with [] => Err IndexError | n :: _ => sub_item ktext n end)).
  (** 419-424: [refs] is the table from the number of an exchange to the name of its flow *)
  Definition one_allocation (refs : list (pystr * pystr)) (a : pyval) : result (pystr * num) :=
    bind (bind (sub_item (lit "@allocatedFraction") a) to_num) (fun q =>
    bind (sub_item (lit "@internalReferenceToCoProduct") a) (fun i =>
    match i with
    | VStr i => match getf i refs with Some n => Ok (lit "allocation for " ++ n, q) | None => Err KeyError end
    | _ => Err KeyError
    end)).
  (** [for alloc in v]: the members of a list, the keys of a dictionary, the characters of a text *)
  Definition iterate (v : pyval) : result (list pyval) :=
    match v with
    | VList l | VTuple l => Ok l
    | VDict d => Ok (map (fun kv => VStr (fst kv)) d)
    | VStr s => Ok (map (fun c => VStr [c]) s)
    | _ => Err TypeError
    end.
  Definition allocations (refs : list (pystr * pystr)) (x : pyval) : result (list (pystr * num)) :=
    bind (get_or (lit "allocations") VNone x) (fun v =>
    if truth v then
      bind (get_or (lit "allocation") (VList []) v) (fun w => bind (iterate w) (fun l =>
      bind (mapM (one_allocation refs) l) (fun ps => Ok (fold_left (fun d kv => putf (fst kv) (snd kv) d) ps []))))
    else Ok []).
  Record inex := InEx { x_id : pyval; x_amount : num; x_comment : list note; x_direction : pyval; x_number : pyval;
                        x_alloc : list (pystr * num) }.
  Definition exchange_init (refs : list (pystr * pystr)) (x : pyval) : result inex :=
    bind (sub_item krefflow x) (fun r =>
    bind (sub_item kobject r) (fun i =>
    bind (flow_name r) (fun _ =>
    bind (get_or (lit "meanAmount") VNone x) (fun m =>
    bind (get_or (lit "resultingAmount") m x) (fun v =>
    bind (to_num v) (fun a =>
    bind (more x) (fun _ =>
    bind (comments x) (fun cs =>
    bind (mapM (extra x) extra_names) (fun es =>
    bind (sub_item (lit "exchangeDirection") x) (fun g =>
    bind (sub_item kinternal x) (fun n =>
    bind (allocations refs x) (fun al =>
    Ok (InEx i a (cs ++ List.concat es) g n al))))))))))))).

  (** ** Properties *)
  Record fprop := FProp { p_name : pystr; p_id : pystr; p_row : fp_row; p_amount : num; p_comment : list note }.
  (** 427-, 455-487 [normal_init]; [None]: not a property of EcoSpold2.  A description is a text and an identifier too. *)
  Definition as_text (v : pyval) : result pystr := match v with VStr s => Ok s | _ => Err TypeError end.
  Definition description (t : pyval) : result pystr :=
    bind (sub_item krefprop t) (fun r => bind (sub_item kdescription r) (fun s => bind (sub_item ktext s) as_text)).
  Definition object_id (k : pystr) (t : pyval) : result pystr :=
    bind (sub_item k t) (fun r => bind (sub_item kobject r) as_text).
  Definition normal_init (t : pyval) : result (option fprop) :=
    bind (description t) (fun n =>
    bind (object_id krefprop t) (fun i =>
    match getf i fp_table with
    | None => Ok None
    | Some row =>
        bind (bind (sub_item (lit "meanValue") t) to_num) (fun a =>
        bind (more t) (fun _ =>
        bind (comments t) (fun cs => Ok (Some (FProp n i row a cs)))))
    end)).
  (** 593-606 [get_properties]: the properties by their description, and the unit of the reference property.
      A property that cannot be converted takes its place too (and is left out later, 751). *)
  Definition same (a : pyval) (b : pyval) : bool := match a, b with VStr s, VStr t => str_eqb s t | _, _ => false end.
  Definition pstate := (list (pystr * option fprop) * option (pystr * pystr))%type.
  Definition prop_step (ref : option pyval) (st : pstate) (t : pyval) : result pstate :=
    bind (sub_item kinternal t) (fun i =>
    match ref with
    | None => Err KeyError
    | Some r =>
        if same i r then bind (object_id krefprop t) (fun o => Ok (fst st, getf o un_table))
        else bind (description t) (fun n => bind (normal_init t) (fun p => Ok (putf n p (fst st), snd st)))
    end).
  Fixpoint prop_steps (ref : option pyval) (st : pstate) (l : list pyval) : result pstate :=
    match l with [] => Ok st | t :: r => bind (prop_step ref st t) (fun st' => prop_steps ref st' r) end.
  Definition get_properties (i : info) (doc : elem) : result pstate :=
    prop_steps (i_ref i) ([], None) (map snd (read [kfprop] doc)).

  (** What is written for a property. *)
  Record wprop := WProp { wp_id : pystr; wp_name : pystr; wp_uid : pystr; wp_unit : pystr; wp_amount : num; wp_comment : list note }.
  (** [up.Quantity(1, u).dimensionality] (640-657): [None] when pint does not know the unit *)
  Context (D : Type) (same_dim : D -> D -> bool) (dim : pystr -> option D).
  (** 430-451 [master_data], 608-610: the unit id is that of the first unit of the table with this name *)
  Definition master_prop (iv : pystr * md_row) : result wprop :=
    bind (to_num (VStr (replace (lit ",") (lit ".") (d_amount (snd iv))))) (fun a =>
    match dim (d_unit (snd iv)) with
    | None => Err OtherError
    | Some _ =>
        match find (fun r => str_eqb (snd (snd r)) (d_unit (snd iv))) un_table with
        | None => Err IndexError
        | Some r => Ok (WProp (fst iv) (d_name (snd iv)) (fst (snd r)) (d_unit (snd iv)) a
                              (match d_comment (snd iv) with [] => [] | c => [(VStr (lit "en"), c)] end))
        end
    end).
  Definition master_props (l : list (pystr * md_row)) : result (list wprop) :=
    bind (mapM master_prop l) (fun ws => Ok (map snd (fold_left (fun d w => putf (wp_name w) w d) ws []))).
  (** 535-589 [convert_properties].  [kg], [m3]: what the comparisons of [str(flow.amount.u)] with 'kg' and 'm**3' give. *)
  Definition direct (p : fprop) : wprop :=
    WProp (p_id p) (p_name p) (f_uid (p_row p)) (f_unit (p_row p)) (p_amount p) (p_comment p).
  Definition mass_prop (pid name : string) (a : num) : wprop :=
    WProp (lit pid) (lit name) (lit "487df68b-4994-4027-8fdc-a4dc298257b7") (lit "kg") a [].
  Definition kwater : pystr := lit "water content".
  Definition wet_mass : wprop := mass_prop "67f102e2-9cb6-4d20-aa16-bf74d8a03326" "wet mass" one.
  Definition dry_mass (w : num) : wprop := mass_prop "3a0af1d6-04c3-41c6-a3da-92c4f61e0eaa" "dry mass" (sub one w).
  Definition wet_water (w : num) : wprop := mass_prop "6d9e1462-80e3-4f10-b3f4-71febd6f1168" "water in wet mass" w.
  (** the entries of the dictionary: as read, or one of the three masses, which are finished *)
  Inductive centry := CRead (p : fprop) | CMass (w : wprop).
  Definition with_masses (m3 : bool) (ps : list (pystr * fprop)) : list (pystr * centry) :=
    let d := map (fun np => (fst np, CRead (snd np))) ps in
    match getf kwater ps with
    | Some p => if m3 then d
                else putf (lit "water in wet mass") (CMass (wet_water (p_amount p)))
                    (putf (lit "dry mass") (CMass (dry_mass (p_amount p)))
                    (putf (lit "wet mass") (CMass wet_mass) d))
    | None => d
    end.
  Definition entry_amount (c : centry) : num := match c with CRead p => p_amount p | CMass w => wp_amount w end.
  (** 560-580: [dry]: the amount of 'dry mass', if there is such an entry *)
  Definition content_prop (kg m3 : bool) (dry : option num) (p : fprop) : wprop :=
    match kg, f_mass (p_row p), m3, f_volume (p_row p) with
    | true, Some m, _, _ => WProp (fst m) (snd m) (lit "83ecd334-1b5b-4784-8938-6a0d0a9d8954") (lit "kg/kg") (p_amount p) (p_comment p)
    | _, _, true, Some v => WProp (fst v) (snd v) (lit "cacb6d36-694d-4e4f-9e79-6c9c73146839") (lit "kg/m3") (p_amount p) (p_comment p)
    | _, _, _, _ => WProp (f_pid (p_row p)) (f_pname (p_row p)) (f_uid (p_row p)) (f_unit (p_row p))
                          (match dry with
                           | Some d => if is_zero d then zero else div (p_amount p) d
                           | None => div (p_amount p) one
                           end) (p_comment p)
    end.
  Definition plain_prop (p : fprop) : wprop :=
    WProp (f_pid (p_row p)) (f_pname (p_row p)) (f_uid (p_row p)) (f_unit (p_row p)) (p_amount p) (p_comment p).
  Definition finish_prop (kg m3 : bool) (dry : option num) (np : pystr * centry) : wprop :=
    match snd np with
    | CMass w => w
    | CRead p => if infixb (lit " content") (fst np) then content_prop kg m3 dry p else plain_prop p
    end.
  Definition convert_properties (master kg m3 : bool) (ps : list (pystr * fprop)) : list wprop :=
    if master then map (fun np => direct (snd np)) ps
    else let d := with_masses m3 ps in
         map (finish_prop kg m3 (option_map entry_amount (getf (lit "dry mass") d))) d.
  (** 750-751 *)
  Definition convertible_only (ps : list (pystr * option fprop)) : list (pystr * fprop) :=
    flat_map (fun np => match snd np with Some p => [(fst np, p)] | None => [] end) ps.

  (** ** The flow *)
  (** What is written of an exchange; identifier and groups: C43, C44, C102. *)
  Record written := Written_ { w_elem : bool; w_flow : pystr; w_names : list note; w_uid : pystr; w_unit : pystr; w_factor : num;
                               w_cas : option pyval; w_formula : option pyval; w_props : list wprop; w_alloc : list (pystr * num); w_comment : list note }.
  Context (mapping : list (pystr * target)) (compartments : list pystr) (master : list (pystr * list (pystr * md_row))).
  (** [use_master_data_properties] *)
  Context (use_master : bool).
  (** [uuid_from_uuid] with the key of this conversion; the comparisons of [str(flow.amount.u)] for a unit *)
  Context (cid : pystr -> pystr) (prints_kg prints_m3 : pystr -> bool).
  Definition unmapped : list string := ["NO_MATCH_MAPPING"; "NO MATCH"; "NO_FLOW_MATCH_MANUAL"; "NO_MAPPING"].
  Definition unit_text (u : pystr) : pystr := replace (lit " ") (lit "_") u.
  (** 650-657: the first unit of the table with the dimension of [u]; a unit of the table that pint does not know ends
      the search *)
  Fixpoint unit_id (u : pystr) (l : list (pystr * (pystr * pystr))) : result pystr :=
    match l with
    | [] => Err ValueError
    | (_, (i, n)) :: r =>
        match dim (unit_text n), dim u with
        | Some a, Some b => if same_dim a b then Ok i else unit_id u r
        | _, _ => Err OtherError
        end
    end.
  Definition factor (t : target) : result num :=
    if str_in (t_factor t) [[]; lit "n/a"] then Ok one else to_num (VStr (t_factor t)).
  Definition truthy (v : option pyval) : option pyval := match v with Some x => if truth x then Some x else None | None => None end.
  (** 613-673 *)
  Definition elementary_info (t : target) (i : info) (doc : elem) : result (pystr * num * list wprop) :=
    if str_in (t_context t) compartments then
      bind (factor t) (fun cf =>
      match dim (t_unit t) with
      | None => Err OtherError
      | Some _ =>
          bind (unit_id (t_unit t) un_table) (fun u =>
          bind (if use_master then
                  master_props (match getf (t_id t) master with Some l => l | None => [] end)
                else bind (get_properties i doc) (fun st =>
                     Ok (convert_properties false (prints_kg (t_unit t)) (prints_m3 (t_unit t)) (convertible_only (fst st)))))
               (fun ps => Ok (u, cf, ps)))
      end)
    else Err ValueError.
  (** 675-703; [None]: left out *)
  Definition product_info (i : info) (doc : elem) : result (option (pystr * pystr * list wprop)) :=
    match i_names i with
    | None => Err KeyError
    | Some ns =>
        bind (mapM (add_note []) ns) (fun _ =>
        bind (get_properties i doc) (fun st =>
        match snd st with
        | None => Ok None
        | Some (u, n) =>
            match dim (unit_text n) with
            | None => Err OtherError
            | Some _ => Ok (Some (u, n, convert_properties use_master (prints_kg n) (prints_m3 n) (convertible_only (fst st))))
            end
        end))
    end.
  (** 707: the identifier needs the first name *)
  Definition first_name (i : info) : result pyval :=
    match i_names i with
    | None => Err KeyError
    | Some [] => Err IndexError
    | Some (n :: _) => sub_item ktext n
    end.
  Inductive outcome := LeftOut | Written (w : written).
  Definition elementary : pyval := VStr (lit "Elementary flow").
  (** 990-1062 [get_flow] *)
  Definition get_flow (x : inex) (doc : elem) : result outcome :=
    bind (info_steps no_info (read flow_keys doc)) (fun i =>
    match i_type i with
    | None => Err KeyError
    | Some ty =>
        if same ty elementary then
          match x_id x with
          | VStr id_ =>
              match getf id_ mapping with
              | None => Ok LeftOut
              | Some t =>
                  if str_in (strip (t_map t)) (map lit unmapped) then Ok LeftOut
                  else bind (elementary_info t i doc) (fun r =>
                       bind (first_name i) (fun _ =>
                       Ok (Written (Written_ true (t_id t) [(VStr (lit "en"), t_name t)] (fst (fst r)) (t_unit t) (snd (fst r))
                                             (truthy (i_cas i)) (truthy (i_formula i)) (snd r) (x_alloc x) (x_comment x)))))
              end
          | _ => Ok LeftOut
          end
        else
          bind (product_info i doc) (fun r =>
          match r with
          | None => Ok LeftOut
          | Some (u, n, ps) =>
              bind (first_name i) (fun _ =>
              bind (mapM (add_note []) (match i_names i with Some l => l | None => [] end)) (fun ns =>
              Ok (Written (Written_ false (match x_id x with VStr s => cid s | _ => [] end) ns u n one
                                    (truthy (i_cas i)) None ps (x_alloc x) (x_comment x)))))
          end)
    end).
  (** 787-798, 985-988, 1932-1937: [file] is the flow data set, if a file was found (C46) *)
  Definition convert_exchange (refs : list (pystr * pystr)) (x : pyval) (file : option elem) : result outcome :=
    bind (exchange_init refs x) (fun e =>
    match file, x_id e with
    | Some doc, VStr (_ :: _) => get_flow e doc
    | _, _ => Ok LeftOut
    end).

  (** ** 706-760 and 1501-1514: the fields of an exchange that is merged with others *)
  Record variable := Variable_ { v_name : pystr; v_formula : option pystr }.
  Inductive setting := SComment (n : note) | SAmount (a : num) | SVariable (s : pystr) | SFormula (s : pystr) | SCalculated
                     | SProperty (p : wprop).
  Definition finish_flow (cs : list note) (a : num) (v : option variable) (ps : list wprop) : list setting :=
    map SComment cs ++ [SAmount a] ++
    match v with
    | Some v => SVariable (v_name v) :: match v_formula v with Some f => [SFormula f; SCalculated] | None => [] end
    | None => []
    end ++ map SProperty ps.
  (** the first exchange of a group is finished once when it is read and again, without variable and properties, when the
      amounts of the others are added *)
  Definition finish_merged (cs : list note) (a : num) (v : option variable) (ps : list wprop) (others : list num) : list setting :=
    finish_flow cs a v ps ++ finish_flow cs (fold_left add others a) None [].
  (** What the fields hold: comments are collected (C10), the others keep the last value. *)
  Definition shown_comments (l : list setting) : list note := flat_map (fun s => match s with SComment n => [n] | _ => [] end) l.
  Definition last_of {A} (f : setting -> option A) (l : list setting) : option A :=
    fold_left (fun o s => match f s with Some a => Some a | None => o end) l None.
  Definition shown_amount : list setting -> option num := last_of (fun s => match s with SAmount a => Some a | _ => None end).
  Definition shown_formula : list setting -> option pystr := last_of (fun s => match s with SFormula a => Some a | _ => None end).
  Definition shown_variable : list setting -> option pystr := last_of (fun s => match s with SVariable a => Some a | _ => None end).
  Definition shown_properties (l : list setting) : list wprop := flat_map (fun s => match s with SProperty p => [p] | _ => [] end) l.
End Inflow.
Arguments FProp {num}. Arguments p_name {num}. Arguments p_id {num}. Arguments p_row {num}. Arguments p_amount {num}. Arguments p_comment {num}.
Arguments WProp {num}. Arguments wp_id {num}. Arguments wp_name {num}. Arguments wp_uid {num}. Arguments wp_unit {num}. Arguments wp_amount {num}.
Arguments wp_comment {num}. Arguments Written_ {num}. Arguments w_elem {num}. Arguments w_flow {num}. Arguments w_names {num}. Arguments w_uid {num}.
Arguments w_unit {num}. Arguments w_factor {num}. Arguments w_cas {num}. Arguments w_formula {num}. Arguments w_props {num}. Arguments w_alloc {num}.
Arguments w_comment {num}. Arguments LeftOut {num}. Arguments Written {num}. Arguments x_id {num}. Arguments x_amount {num}. Arguments x_comment {num}.
Arguments x_direction {num}. Arguments x_number {num}. Arguments x_alloc {num}. Arguments CRead {num}. Arguments CMass {num}. Arguments direct {num}.
Arguments plain_prop {num}. Arguments mass_prop {num}. Arguments convertible_only {num}. Arguments SComment {num}. Arguments SAmount {num}.
Arguments SVariable {num}. Arguments SFormula {num}. Arguments SCalculated {num}. Arguments SProperty {num}.
Arguments shown_comments {num}. Arguments shown_amount {num}. Arguments shown_formula {num}. Arguments shown_variable {num}. Arguments shown_properties {num}.
Arguments finish_flow {num}. Arguments finish_merged {num}.
