(** EcoSpold2 to ILCD: the flow data set written for a product, and what an exchange says about it
    (ECS2_to_ILCD1_conversion.py 738-745, 870-920, 944-946, 1122-1125, 1171-1173, 1185-1226, 1337-1374, 1419-1463, 1510-1614; units.py 162-388;
    xmltodict.unparse). *)
From Coq Require Import Ascii String List Bool Arith NArith ZArith QArith.
From Verif Require Import PyBase PyValues MultiLangModel DotDictModel XmlModel UtilsModel HandleModel ConverterModel AsideModel InflowModel.
Import ListNotations.
Local Open Scope string_scope.
Local Open Scope list_scope.

(** ** Writing XML *)
(** xmltodict 0.13 [unparse] ([_emit]), and how ElementTree reads the result again: a name with the prefix common, or none, gets
    its namespace, declarations of namespaces are no attributes, an empty text is no text.  White space added
    between elements ([pretty]) and the list of lists are left out. *)
Section Emit.
  (** [str] of floats and other values *)
  Context (show : pyval -> pystr).
  Definition common_space : pystr := lit "http://lca.jrc.it/ILCD/Common".
  (** [ns]: the value of the attribute xmlns of the document *)
  Definition qualified (ns key : pystr) : pystr :=
    if prefixb (lit "common:") key then lit "{" ++ common_space ++ lit "}" ++ skipn 7 key else lit "{" ++ ns ++ lit "}" ++ key.
  Definition attribute_name (k : pystr) : pystr :=
    if str_eqb k (lit "xml:lang") then lit "{http://www.w3.org/XML/1998/namespace}lang" else k.
  Definition str_of (v : pyval) : pystr := match v with VStr s => s | VInt z => str_of_Z z | _ => show v end.
  Definition cdata (s : pystr) : option pystr := match s with [] => None | _ => Some s end.
  Definition attributes (d : list (pystr * pyval)) : list (pystr * pystr) :=
    flat_map (fun kv => match fst kv with
                        | c :: k => if (N.eqb c (ch "@") && negb (prefixb (lit "xmlns") k))%bool then [(attribute_name k, str_of (snd kv))] else []
                        | [] => []
                        end) d.
  Definition own_text (d : list (pystr * pyval)) : option pystr :=
    match getf ktext d with Some v => cdata (str_of v) | None => None end.
  Definition is_child (k : pystr) : bool :=
    (negb (str_eqb k ktext) && match k with c :: _ => negb (N.eqb c (ch "@")) | [] => true end)%bool.
  Fixpoint emit (ns key : pystr) (v : pyval) : list elem :=
    match v with
    | VDict d => [Elem (qualified ns key) (attributes d) (own_text d) None
                       (flat_map (fun kv => if is_child (fst kv) then emit ns (fst kv) (snd kv) else []) d)]
    | VList l | VTuple l => flat_map (emit ns key) l
    | VNone => [Elem (qualified ns key) [] None None []]
    | VBool b => [Elem (qualified ns key) [] (Some (lit (if b then "true" else "false"))) None []]
    | _ => [Elem (qualified ns key) [] (cdata (str_of v)) None []]
    end.
  (** a document has one root *)
  Definition unparse (v : pyval) : result elem :=
    match v with
    | VDict [(key, VDict d)] =>
        match getf (lit "@xmlns") d with
        | Some (VStr ns) => match emit ns key (VDict d) with [e] => Ok e | _ => Err ValueError end
        | _ => Err OtherError
        end
    | _ => Err ValueError
    end.
End Emit.

(** ** Flow properties *)
(** units.py 162-388 [pint_to_ilcd_fp]: key (made from the dimension of a unit, or the id of a property of EcoSpold2), id of the
    ILCD flow property, of its unit group, the name of the unit (for dimensions only), version, name *)
Definition to_fp_source : list (string * (string * string * option string * string * string)) :=
  [("60a18d85-9c22-3f47-b932-2447513880c9", ("01846770-4cfe-4a25-8ad9-919d8d378345", "5beb6eed-33a9-47b8-9ede-1dfe8f679159", Some "Item(s)", "03.00.004", "Number of items"));
   ("f09fb2f1-8af1-3630-8463-c7ebc26474be", ("93a60a56-a3c8-11da-a746-0800200c9a66", "93a60a57-a3c8-11da-a746-0800200c9a66", Some "MJ", "03.00.003", "Net calorific value"));
   ("f09fb2f1-8af1-3630-8463-c7ebc26474bf", ("93a60a56-a3c8-14da-a746-0800200c9a66", "93a60a57-a3c8-11da-a746-0800200c9a66", Some "MJ", "03.00.003", "Gross calorific value"));
   ("5f4bed1b-40a0-39cd-9fbe-798c54c5d5a5", ("93a60a56-a3c8-22da-a746-0800200c9a66", "93a60a57-a3c8-12da-a746-0800200c9a66", Some "m3", "03.00.003", "Volume"));
   ("9441711e-e3ae-36cd-bfaf-83783500857f", ("838aaa20-0117-11db-92e3-0800200c9a66", "838aaa21-0117-11db-92e3-0800200c9a66", Some "t*km", "03.00.000", "Goods transport (mass*distance)"));
   ("40c11086-1e24-3103-8226-47fc3d6f8d57", ("838aaa23-0117-11db-92e3-0800200c9a66", "838aaa22-0117-11db-92e3-0800200c9a66", Some "m", "03.00.000", "Length"));
   ("e132038d-01c0-35ce-a697-b8892ced1280", ("1cc347a0-3bd1-46db-a308-2707c68d2351", "5454b231-270e-45e6-89b2-7f4f3e482245", Some "Items*km", "03.00.000", "Person transport"));
   ("d5b44662-691e-39e9-b139-c306815ffd72", ("93a60a56-a3c8-17da-a746-0800200c9a66", "93a60a57-a3c8-16da-a746-0800200c9a66", Some "kBq", "03.00.003", "Radioactivity"));
   ("98c1db98-9766-3362-8e79-aedf42522267", ("93a60a56-a3c8-19da-a746-0800200c9a66", "93a60a57-a3c8-18da-a746-0800200c9a66", Some "m2", "03.00.003", "Area"));
   ("174a2f50-251e-374d-81c7-088f905c30cd", ("93a60a56-a3c8-21da-a746-0800200c9a66", "93a60a57-a3c8-20da-a746-0800200c9a66", Some "m2*a", "03.00.003", "Area*time"));
   ("080aba62-dce7-313f-a6f1-2d94db4d5a97", ("441238a3-ba09-46ec-b35b-c30cfba746d1", "93a60a57-a3c8-23da-a746-0800200c9a66", Some "m3*a", "02.00.003", "Volume*time"));
   ("7844486d-bbaf-3c45-9487-7fe3476c5b6f", ("93a60a56-a3c8-11da-a746-0800200b9a66", "93a60a57-a4c8-11da-a746-0800200c9a66", Some "kg", "03.00.003", "Mass"));
   ("5f5fa142-2703-39f2-bf19-ff33f435cc49", ("c0447923-0e60-4b3c-97c2-a86dddd9eea5", "af638906-3ec7-4314-8de7-f76039f2dd01", Some "d", "03.00.000", "Duration"));
   ("e2c902a8-5a87-34ea-b6cb-f9579afa41f9", ("e07b4169-bd86-4337-8fa6-1f76916475bf", "b4cac580-5ce8-11df-a08a-0800200c9a66", Some "m*a", "02.00.000", "Length*time"));
   ("7cd6e908-4c0a-35b9-9530-620e5877f4e5", ("67b63204-ef91-44b2-a927-2f4ead1fae17", "da299c4d-1741-4da8-9fbd-5ccfb5e1d688", Some "EUR2000", "03.00.000", "Currency"));
   ("86e381c9-d6d4-3241-b8f6-3d78596aa3cc", ("b3f0f892-c5a3-4c66-a432-c09e3d1e9bd6", "59f191d6-5dd3-4553-af88-1a32accfe308", Some "kg*a", "03.00.003", "Mass*time"));
   ("38f94dd1-d5aa-41b8-b182-c0c42985d9dc", ("67b63204-ef91-44b2-a927-2f4ead1fae17", "da299c4d-1741-4da8-9fbd-5ccfb5e1d688", None, "03.00.000", "price"));
   ("7a3978ea-3e26-4329-bc8b-0915d58a7e6f", ("67b63204-ef91-44b2-a927-2f4ead1fae17", "da299c4d-1741-4da8-9fbd-5ccfb5e1d688", None, "03.00.000", "true value relation"));
   ("6bc8ac5e-cc4c-45fb-93dc-53c0e45091df", ("93a60a56-a3c8-14da-a746-0800200c9a66", "93a60a57-a3c8-11da-a746-0800200c9a66", None, "03.00.003", "energy content"));
   ("d61b8768-8ef6-4a99-ae16-9e51f24ad5b5", ("93a60a56-a3c8-14da-a746-0800200c9a66", "93a60a57-a3c8-11da-a746-0800200c9a66", None, "03.00.003", "heating value, gross"));
   ("48c987bb-3144-4872-b5c7-b1389c40be25", ("93a60a56-a3c8-11da-a746-0800200c9a66", "93a60a57-a3c8-11da-a746-0800200c9a66", None, "03.00.003", "heating value, net"));
   ("ed229b01-1b3f-4754-8871-5e88a83f3725", ("f2149ae0-b105-4299-b1f1-cf1fd1577867", "93a60a57-a4c8-11da-a746-0800200c9a66", None, "03.00.003", "concentration, chromium"));
   ("bca4bb32-f701-46bb-ba1e-bad477c19f7f", ("f2149ae0-b105-4299-b1f1-cf1fd1577867", "93a60a57-a4c8-11da-a746-0800200c9a66", None, "03.00.003", "mass concentration, chromium"));
   ("e1d2c19b-3a97-4f52-a83f-fe88400452c2", ("f2149ae0-b105-4299-b1f1-cf1fd1577867", "93a60a57-a4c8-11da-a746-0800200c9a66", None, "03.00.003", "chromium content"));
   ("35d16e49-9e29-4e1d-ac22-ea7f84fb76e1", ("ac557972-7563-49fb-8461-29a4fe8600b7", "93a60a57-a4c8-11da-a746-0800200c9a66", None, "03.00.003", "mass concentration, gallium"));
   ("a17f5864-6177-4619-82c5-3426c8c64e7d", ("ac557972-7563-49fb-8461-29a4fe8600b7", "93a60a57-a4c8-11da-a746-0800200c9a66", None, "03.00.003", "gallium content"));
   ("2f7030b9-bafc-4b43-8504-deb8b5044130", ("b1192e5a-4a70-4fd7-89a2-6b798c7ed3a7", "93a60a57-a4c8-11da-a746-0800200c9a66", None, "03.00.003", "mass concentration, cobalt"));
   ("66e996b5-5f7b-449f-8893-0b787af21d7e", ("b1192e5a-4a70-4fd7-89a2-6b798c7ed3a7", "93a60a57-a4c8-11da-a746-0800200c9a66", None, "03.00.003", "cobalt content"));
   ("d574cc22-07f2-4202-b564-1116ab197692", ("a5278d68-2936-477b-b9de-7ad2d66422ec", "93a60a57-a4c8-11da-a746-0800200c9a66", None, "03.00.003", "mass concentration, strontium"));
   ("995265a2-f2cb-4c12-a961-766eb34392b9", ("a5278d68-2936-477b-b9de-7ad2d66422ec", "93a60a57-a4c8-11da-a746-0800200c9a66", None, "03.00.003", "strontium content"));
   ("1325d7f9-2fe2-4226-9304-ad9e5371e08f", ("dd77d131-c2ee-4d5a-b5d3-f7aa981ae305", "93a60a57-a4c8-11da-a746-0800200c9a66", None, "03.00.003", "mass concentration, scandium"));
   ("35d2e0b2-eca5-4897-a6af-b6d2e61a9079", ("dd77d131-c2ee-4d5a-b5d3-f7aa981ae305", "93a60a57-a4c8-11da-a746-0800200c9a66", None, "03.00.003", "scandium content"));
   ("3759d833-560a-4dbb-949e-afc63c0ade26", ("435e1d0e-e36e-4d4a-9cd1-7fd2c135da61", "93a60a57-a4c8-11da-a746-0800200c9a66", None, "03.00.003", "mass concentration, antimony"));
   ("4054bfa7-dfcb-452e-b1dd-810b9e981506", ("435e1d0e-e36e-4d4a-9cd1-7fd2c135da61", "93a60a57-a4c8-11da-a746-0800200c9a66", None, "03.00.003", "antimony content"));
   ("a7e81e5c-d3b9-421c-bf6f-7cafcf911ab7", ("c2a5d679-93be-44a1-b82f-da986e622ab9", "93a60a57-a4c8-11da-a746-0800200c9a66", None, "03.00.003", "mass concentration, europium"));
   ("0b27405b-3e4d-45aa-bb5c-3c52d2b04e0e", ("c2a5d679-93be-44a1-b82f-da986e622ab9", "93a60a57-a4c8-11da-a746-0800200c9a66", None, "03.00.003", "europium content"));
   ("d33e6732-d2f8-4441-ba03-e39d4a1228a5", ("7eb6e3cb-0c12-4216-99b5-2032906d42ca", "93a60a57-a4c8-11da-a746-0800200c9a66", None, "03.00.003", "mass concentration. lanthanum"));
   ("94b2be61-35f2-40fb-b9ab-636ae5a0415b", ("7eb6e3cb-0c12-4216-99b5-2032906d42ca", "93a60a57-a4c8-11da-a746-0800200c9a66", None, "03.00.003", "lanthanum content"));
   ("a301a838-7975-4d89-9e74-8eb77ad03cd1", ("fec15e58-109a-4775-bc6f-72ca0b9b3cee", "93a60a57-a4c8-11da-a746-0800200c9a66", None, "03.00.003", "carbon content"));
   ("d388e0ab-8411-4347-8174-c5bf5fd14296", ("fec15e58-109a-4775-bc6f-72ca0b9b3cee", "93a60a57-a4c8-11da-a746-0800200c9a66", None, "03.00.003", "mass concentration, carbone dioxide"));
   ("c74c3729-e577-4081-b572-a283d2561a75", ("64b8e725-b0ba-4837-abb9-62dc0e7b9f6f", "93a60a57-a4c8-11da-a746-0800200c9a66", None, "03.00.003", "carbon content, fossil"));
   ("6393c14b-db78-445d-a47b-c0cb866a1b25", ("62e503ce-544a-4599-b2ad-bcea15a7bf20", "93a60a57-a4c8-11da-a746-0800200c9a66", None, "03.00.003", "carbon content, non-fossil"));
   ("883a9dc6-bbb5-418c-8d6e-7031e96028ef", ("62e503ce-544a-4599-b2ad-bcea15a7bf20", "93a60a57-a4c8-11da-a746-0800200c9a66", None, "03.00.003", "organic carbon content"));
   ("044617f2-c1d4-4592-94c6-bb325139e231", ("62e503ce-544a-4599-b2ad-bcea15a7bf20", "93a60a57-a4c8-11da-a746-0800200c9a66", None, "03.00.003", "Organic Carbon content of soil"));
   ("1ced5983-2a7b-49af-b6cd-ad4ebaafba89", ("b539c404-ce19-43fb-ba14-6a1bdd46d8be", "93a60a57-a4c8-11da-a746-0800200c9a66", None, "03.00.003", "mass concentration, praseodymium"));
   ("4fb17587-2c03-4b4e-b38b-867cfd4bfae8", ("b539c404-ce19-43fb-ba14-6a1bdd46d8be", "93a60a57-a4c8-11da-a746-0800200c9a66", None, "03.00.003", "praseodymium content"));
   ("cea619b8-1a76-4680-8b55-cdf682a3b32a", ("76d611d0-a0a5-43d5-b391-a4e7ec463052", "93a60a57-a4c8-11da-a746-0800200c9a66", None, "03.00.003", "concentration, calcium"));
   ("ddbab0d1-b156-41bc-98e5-fb680285d7cd", ("76d611d0-a0a5-43d5-b391-a4e7ec463052", "93a60a57-a4c8-11da-a746-0800200c9a66", None, "03.00.003", "mass concentration, calcium"));
   ("f9da385d-5b1b-4548-826c-0bf5892a9fd9", ("76d611d0-a0a5-43d5-b391-a4e7ec463052", "93a60a57-a4c8-11da-a746-0800200c9a66", None, "03.00.003", "calcium content"));
   ("468e50e8-1960-4eba-bc1a-a9938a301694", ("984505b9-8536-4e31-a312-0d1a3788f009", "93a60a57-a4c8-11da-a746-0800200c9a66", None, "03.00.003", "mass concentration, chlorine"));
   ("66d4c921-658a-4ba0-b190-c6e09e57d74a", ("984505b9-8536-4e31-a312-0d1a3788f009", "93a60a57-a4c8-11da-a746-0800200c9a66", None, "03.00.003", "chlorine content"));
   ("f0e05731-4b64-4a8a-a216-a7ad908d76bc", ("3da87ad0-733e-4ca9-b234-75ef52ca2a2d", "93a60a57-a4c8-11da-a746-0800200c9a66", None, "03.00.003", "mass concentration, holmium"));
   ("86937b4e-c531-4ce5-b65e-ce0d17d3ca27", ("3da87ad0-733e-4ca9-b234-75ef52ca2a2d", "93a60a57-a4c8-11da-a746-0800200c9a66", None, "03.00.003", "holmium content"));
   ("f53a5dbc-3bd3-4570-adff-b00790ea3ffc", ("085af809-5dc6-4920-aaa1-4ac493ae4af8", "93a60a57-a4c8-11da-a746-0800200c9a66", None, "03.00.003", "nitrogen content"));
   ("7980069a-3764-4d47-81b0-6cd0b79cc8f6", ("085af809-5dc6-4920-aaa1-4ac493ae4af8", "93a60a57-a4c8-11da-a746-0800200c9a66", None, "03.00.003", "Organic Nitrogen content of soil"));
   ("cf66b969-7413-4ee7-aaf1-8a3b47904836", ("085af809-5dc6-4920-aaa1-4ac493ae4af8", "93a60a57-a4c8-11da-a746-0800200c9a66", None, "03.00.003", "concentration, nitrogen"));
   ("f04a971d-f503-4ca0-b2b1-0ecd2e53ea61", ("085af809-5dc6-4920-aaa1-4ac493ae4af8", "93a60a57-a4c8-11da-a746-0800200c9a66", None, "03.00.003", "mass concentration, nitrogen"));
   ("88c9f622-8451-41aa-98b0-c56b191a7e0a", ("085af809-5dc6-4920-aaa1-4ac493ae4af8", "93a60a57-a4c8-11da-a746-0800200c9a66", None, "03.00.003", "mass concentration, particulate nitrogen"));
   ("1ae79861-a8a8-4118-aa6b-eb93351f315b", ("2e4695ff-d6a5-42c2-9816-6dbd6c859707", "93a60a57-a4c8-11da-a746-0800200c9a66", None, "03.00.003", "mass concentration, radium"));
   ("8daf1327-bd94-4903-8e7b-5fe7731a259b", ("2e4695ff-d6a5-42c2-9816-6dbd6c859707", "93a60a57-a4c8-11da-a746-0800200c9a66", None, "03.00.003", "radium content"));
   ("40a28310-9574-4867-88fb-623fa7ed1fa3", ("f3e1017d-1aa3-4763-b563-9494858e1ec7", "93a60a57-a4c8-11da-a746-0800200c9a66", None, "03.00.003", "mass concentration, hydrogen"));
   ("2d23d1bb-e137-4ade-83fc-fbd0421e6cd5", ("f3e1017d-1aa3-4763-b563-9494858e1ec7", "93a60a57-a4c8-11da-a746-0800200c9a66", None, "03.00.003", "hydrogen content"));
   ("76b0b954-ae61-4ac8-a585-700724fd53a6", ("078ecf46-26d6-47e3-8128-fcced884d1cd", "93a60a57-a4c8-11da-a746-0800200c9a66", None, "03.00.003", "mass concentration, germanium"));
   ("fe9f0d92-ecdf-4e72-bd20-fadd3b6175bf", ("078ecf46-26d6-47e3-8128-fcced884d1cd", "93a60a57-a4c8-11da-a746-0800200c9a66", None, "03.00.003", "germanium content"));
   ("cf6fc65c-b941-4211-89c8-ec3aec00b076", ("0bb4f3ac-2944-4263-8587-ea6eac2d24ac", "93a60a57-a4c8-11da-a746-0800200c9a66", None, "03.00.003", "mass concentration, rhenium"));
   ("48b2521b-63f6-4121-9c3f-8edef7b31fc5", ("0bb4f3ac-2944-4263-8587-ea6eac2d24ac", "93a60a57-a4c8-11da-a746-0800200c9a66", None, "03.00.003", "rhenium content"));
   ("33976f6b-2575-4410-8f60-d421bdf3e554", ("5db5be2d-8df6-432b-ab3d-ffde49d3fe7f", "93a60a57-a4c8-11da-a746-0800200c9a66", None, "03.00.003", "mass concentration, barium"));
   ("1dcfb203-7830-40b2-878d-13fc02a74051", ("5db5be2d-8df6-432b-ab3d-ffde49d3fe7f", "93a60a57-a4c8-11da-a746-0800200c9a66", None, "03.00.003", "barium content"));
   ("9adea776-5feb-432f-8f16-34d78ed99306", ("9bb58775-7ba8-41a7-8818-f75af4f5fe39", "93a60a57-a4c8-11da-a746-0800200c9a66", None, "03.00.003", "mass concentration, platinum"));
   ("832bb926-0c7d-4b16-bf36-fc69665afe8b", ("9bb58775-7ba8-41a7-8818-f75af4f5fe39", "93a60a57-a4c8-11da-a746-0800200c9a66", None, "03.00.003", "platinum content"));
   ("c35265a9-fd3e-468c-af8e-f4e020c38fc0", ("71fc82ec-9eb9-424a-bc45-053a844c8af9", "93a60a57-a4c8-11da-a746-0800200c9a66", None, "03.00.003", "mass concentration, selenium"));
   ("7e83fd10-c04d-4a80-8df2-a8bbcc268c4a", ("71fc82ec-9eb9-424a-bc45-053a844c8af9", "93a60a57-a4c8-11da-a746-0800200c9a66", None, "03.00.003", "selenium content"));
   ("4e0d51e1-8833-45e8-bd22-48292c8c93b8", ("7eb51190-01f0-40a0-801d-b5c588272314", "93a60a57-a4c8-11da-a746-0800200c9a66", None, "03.00.003", "mass concentration, krypton"));
   ("aaedfd5e-a9ce-4257-a015-93ef483fed8c", ("7eb51190-01f0-40a0-801d-b5c588272314", "93a60a57-a4c8-11da-a746-0800200c9a66", None, "03.00.003", "krypton content"));
   ("b142feef-d230-4376-aee7-919bbebed59a", ("d58f03c0-feab-4e47-aef6-4394aecc72dd", "93a60a57-a4c8-11da-a746-0800200c9a66", None, "03.00.003", "mass concentration. lutetium"));
   ("fbc58d8d-0a4c-4eb0-a14a-fafef222bafc", ("d58f03c0-feab-4e47-aef6-4394aecc72dd", "93a60a57-a4c8-11da-a746-0800200c9a66", None, "03.00.003", "lutetium content"));
   ("6b7d0b77-c97b-4a8a-b4c5-f70836484a84", ("d7882bb5-cb4e-4ef6-84d8-1e1b75de022c", "93a60a57-a4c8-11da-a746-0800200c9a66", None, "03.00.003", "mass concentration, neon"));
   ("fb2ccf7c-73c6-4d43-a3c7-26fda1423f18", ("d7882bb5-cb4e-4ef6-84d8-1e1b75de022c", "93a60a57-a4c8-11da-a746-0800200c9a66", None, "03.00.003", "neon content"));
   ("807a3833-37fa-4606-9023-25d4e9eb0158", ("697fbcb6-b516-4c2f-a78e-5ec2ffaec4b3", "93a60a57-a4c8-11da-a746-0800200c9a66", None, "03.00.003", "mass concentration, caesium"));
   ("4583f86d-51fa-4fda-9c75-7fba827532f5", ("697fbcb6-b516-4c2f-a78e-5ec2ffaec4b3", "93a60a57-a4c8-11da-a746-0800200c9a66", None, "03.00.003", "caesium content"));
   ("2382a305-44cb-479c-a43d-f759f7689a9d", ("dccec68c-c1c9-42e4-9fa9-42dbb943082d", "93a60a57-a4c8-11da-a746-0800200c9a66", None, "03.00.003", "concentration, cadmium"));
   ("1111ac7e-20df-4ab4-9e02-57821894372c", ("dccec68c-c1c9-42e4-9fa9-42dbb943082d", "93a60a57-a4c8-11da-a746-0800200c9a66", None, "03.00.003", "mass concentration, cadmium"));
   ("ad7781c7-5dc2-4421-b182-e1fd4cef7fa5", ("dccec68c-c1c9-42e4-9fa9-42dbb943082d", "93a60a57-a4c8-11da-a746-0800200c9a66", None, "03.00.003", "cadmium content"));
   ("edb5885b-2292-4889-9221-ab7012ea5595", ("5c39e9a9-4bb5-42cd-b519-0db3a940a575", "93a60a57-a4c8-11da-a746-0800200c9a66", None, "03.00.003", "mass concentration, ruthenium"));
   ("44454aa6-3e54-4bb3-850c-9011a7257985", ("5c39e9a9-4bb5-42cd-b519-0db3a940a575", "93a60a57-a4c8-11da-a746-0800200c9a66", None, "03.00.003", "ruthenium content"));
   ("5b7203d0-4a12-43e3-a2de-d9000584a5c6", ("2ea4d465-87e3-4f85-81a0-2bd661639f4e", "93a60a57-a4c8-11da-a746-0800200c9a66", None, "03.00.003", "mass concentration, yttrium"));
   ("72ca3df5-6d2a-4a64-9fdf-d976136e4167", ("2ea4d465-87e3-4f85-81a0-2bd661639f4e", "93a60a57-a4c8-11da-a746-0800200c9a66", None, "03.00.003", "yttrium content"));
   ("a3ca4324-b23e-489e-a799-b50ef9ed2e4e", ("d07d61ac-df46-4e74-bd49-3260c7b5fb89", "93a60a57-a4c8-11da-a746-0800200c9a66", None, "03.00.003", "mass concentration, protactinium"));
   ("30fd0072-a0d4-4b5b-ad3e-dbd50a227ba5", ("d07d61ac-df46-4e74-bd49-3260c7b5fb89", "93a60a57-a4c8-11da-a746-0800200c9a66", None, "03.00.003", "protactinium content"));
   ("8e73d3fb-bb81-4c42-bfa6-8be4ff13125d", ("699b6a73-e8d5-4755-8d1d-b70de4b9efdd", "93a60a57-a4c8-11da-a746-0800200c9a66", None, "03.00.003", "mass concentration, phophorus"));
   ("97f3bbfe-fa3a-4d05-9cb6-bb4b6379c5ef", ("699b6a73-e8d5-4755-8d1d-b70de4b9efdd", "93a60a57-a4c8-11da-a746-0800200c9a66", None, "03.00.003", "phosphorus content"));
   ("449f4414-9f9f-4b76-8bfb-f170052555ab", ("699b6a73-e8d5-4755-8d1d-b70de4b9efdd", "93a60a57-a4c8-11da-a746-0800200c9a66", None, "03.00.003", "concentration, phosphorus"));
   ("0f205308-d33a-430b-b3ec-b62bef311f2f", ("699b6a73-e8d5-4755-8d1d-b70de4b9efdd", "93a60a57-a4c8-11da-a746-0800200c9a66", None, "03.00.003", "mass concentration, particulate phophorus"));
   ("6a158827-67f6-4c5e-ba04-3da10718fc21", ("d703ed04-22ca-4151-85ae-da1fcf54df68", "93a60a57-a4c8-11da-a746-0800200c9a66", None, "03.00.003", "mass concentration, niobium"));
   ("d8135201-fa30-4332-a051-7eddb3f8f8ed", ("d703ed04-22ca-4151-85ae-da1fcf54df68", "93a60a57-a4c8-11da-a746-0800200c9a66", None, "03.00.003", "niobium content"));
   ("26ec2bdf-c4d7-4ed4-a751-5cfa97d2b26b", ("61ec59a5-3816-4e5a-88c7-acf8a8b33d41", "93a60a57-a4c8-11da-a746-0800200c9a66", None, "03.00.003", "concentration, silver"));
   ("dcdc6c7b-0b72-4174-bc90-f51ed66426d5", ("61ec59a5-3816-4e5a-88c7-acf8a8b33d41", "93a60a57-a4c8-11da-a746-0800200c9a66", None, "03.00.003", "mass concentration, silver"));
   ("56f09738-8225-4bdc-91d2-39ee6328f0ee", ("61ec59a5-3816-4e5a-88c7-acf8a8b33d41", "93a60a57-a4c8-11da-a746-0800200c9a66", None, "03.00.003", "silver content"));
   ("dfe0e5ee-314c-4fac-9a75-c96aa63ec3b5", ("184c9c12-32fb-4252-a484-9952928b8473", "93a60a57-a4c8-11da-a746-0800200c9a66", None, "03.00.003", "concentration, indium"));
   ("cbffa34c-c6de-4836-abfe-c6b94b99655a", ("184c9c12-32fb-4252-a484-9952928b8473", "93a60a57-a4c8-11da-a746-0800200c9a66", None, "03.00.003", "mass concentration, indium"));
   ("d0a2c761-50ab-4c1d-a37b-525409640a76", ("184c9c12-32fb-4252-a484-9952928b8473", "93a60a57-a4c8-11da-a746-0800200c9a66", None, "03.00.003", "indium content"));
   ("763a698f-54d7-4e2a-84a7-9cc8c0271b6a", ("476dbccb-c1e5-4cdb-aa14-f4ef627c45ec", "93a60a57-a4c8-11da-a746-0800200c9a66", None, "03.00.003", "mass concentration, fluorine"));
   ("1f3c2d02-f345-4df9-ba6a-88cdeaa67923", ("476dbccb-c1e5-4cdb-aa14-f4ef627c45ec", "93a60a57-a4c8-11da-a746-0800200c9a66", None, "03.00.003", "fluorine content"));
   ("9210d4a4-402c-475a-b354-94a8263632eb", ("1e6e8252-dae9-4b4a-866c-c6c3a5e810a1", "93a60a57-a4c8-11da-a746-0800200c9a66", None, "03.00.003", "mass concentration, thulium"));
   ("fdafa860-c059-437e-838d-9d151b2067b3", ("1e6e8252-dae9-4b4a-866c-c6c3a5e810a1", "93a60a57-a4c8-11da-a746-0800200c9a66", None, "03.00.003", "thulium content"));
   ("77154d2e-4b05-48f2-a89a-789acd170497", ("d6b6a36c-58b3-48c7-b723-392a6df4754f", "93a60a57-a4c8-11da-a746-0800200c9a66", None, "03.00.003", "mass concentration, aluminium"));
   ("e9688cbc-7400-457a-a936-5ab123ea326c", ("d6b6a36c-58b3-48c7-b723-392a6df4754f", "93a60a57-a4c8-11da-a746-0800200c9a66", None, "03.00.003", "aluminium content"));
   ("2dd01d14-3b27-4a66-9308-2ab96e6bcbd0", ("24a07e87-aa12-4f9c-8c40-580e9bf7a2f2", "93a60a57-a4c8-11da-a746-0800200c9a66", None, "03.00.003", "mass concentration, zirconium"));
   ("da9aed81-4e0a-4a15-9d5e-27020d826a01", ("24a07e87-aa12-4f9c-8c40-580e9bf7a2f2", "93a60a57-a4c8-11da-a746-0800200c9a66", None, "03.00.003", "zirconium content"));
   ("6d9e1462-80e3-4f10-b3f4-71febd6f1168", ("7ec8d70e-4ffc-4024-86b7-6141cc0a2bf5", "93a60a57-a4c8-11da-a746-0800200c9a66", None, "03.00.003", "water in wet mass"));
   ("a9358458-9724-4f03-b622-106eda248916", ("7ec8d70e-4ffc-4024-86b7-6141cc0a2bf5", "93a60a57-a4c8-11da-a746-0800200c9a66", None, "03.00.003", "water content"));
   ("26e0e131-cb29-4602-9cce-ecaaf1ffd8d4", ("827934c0-561e-402c-82f2-f04765d180e5", "93a60a57-a4c8-11da-a746-0800200c9a66", None, "03.00.003", "mass concentration, bismuth"));
   ("e66d61f6-8287-4cf1-bb0c-f978ee5e34b3", ("827934c0-561e-402c-82f2-f04765d180e5", "93a60a57-a4c8-11da-a746-0800200c9a66", None, "03.00.003", "bismuth content"));
   ("d21c7c5c-b2c2-43ae-8575-c377cc0b0495", ("83040211-0076-4862-b172-79ce62b71187", "93a60a57-a4c8-11da-a746-0800200c9a66", None, "03.00.003", "mass concentration, beryllium"));
   ("bf4d71d9-4301-4939-8a9d-36d8811b7db0", ("83040211-0076-4862-b172-79ce62b71187", "93a60a57-a4c8-11da-a746-0800200c9a66", None, "03.00.003", "beryllium content"));
   ("1a3f7490-7944-4d5a-ae87-4133cd0f6eec", ("78b712c9-7f07-467f-b085-efee6067871b", "93a60a57-a4c8-11da-a746-0800200c9a66", None, "03.00.003", "mass concentration, osmium"));
   ("bbf35356-1757-4287-a72c-ae2bb1753731", ("78b712c9-7f07-467f-b085-efee6067871b", "93a60a57-a4c8-11da-a746-0800200c9a66", None, "03.00.003", "osmium content"));
   ("c0dd146d-4b11-4b59-bd42-01ab280d6342", ("85aa9476-64fb-4c86-bc01-0c656b479cb8", "93a60a57-a4c8-11da-a746-0800200c9a66", None, "03.00.003", "mass concentration, lithium"));
   ("db0b4bbf-fd26-4ba2-b9de-0fd47476304f", ("85aa9476-64fb-4c86-bc01-0c656b479cb8", "93a60a57-a4c8-11da-a746-0800200c9a66", None, "03.00.003", "lithium content"));
   ("ff888459-10c3-4700-afce-3a024aaf89cf", ("11f31f00-f6fa-4ef0-a9e3-5bd37199dd20", "93a60a57-a4c8-11da-a746-0800200c9a66", None, "03.00.003", "mass concentration, tin"));
   ("d8551abf-da96-4429-846b-0973136b7d48", ("11f31f00-f6fa-4ef0-a9e3-5bd37199dd20", "93a60a57-a4c8-11da-a746-0800200c9a66", None, "03.00.003", "tin content"));
   ("b41681b0-87c1-4333-8eae-045ec68fe0c2", ("25c2946d-2b1f-4245-b2aa-80c037912665", "93a60a57-a4c8-11da-a746-0800200c9a66", None, "03.00.003", "mass concentration, thorium"));
   ("b181bebd-539c-49bc-810e-9a443060afbc", ("25c2946d-2b1f-4245-b2aa-80c037912665", "93a60a57-a4c8-11da-a746-0800200c9a66", None, "03.00.003", "thorium content"));
   ("3a0030f4-0585-487f-84fb-c6f3fa283ade", ("f18a0b1c-59ec-4c76-ae20-bc6c522547b3", "93a60a57-a4c8-11da-a746-0800200c9a66", None, "03.00.003", "mass concentration, tellurium"));
   ("8aaa7771-015a-4c28-8291-afa3342dbfbe", ("f18a0b1c-59ec-4c76-ae20-bc6c522547b3", "93a60a57-a4c8-11da-a746-0800200c9a66", None, "03.00.003", "tellurium content"));
   ("70da437b-65cd-498b-a980-7a6b8bc2f525", ("f33b22c4-e0e7-4fa6-ae2b-246ecb0a16eb", "93a60a57-a4c8-11da-a746-0800200c9a66", None, "03.00.003", "concentration, nickel"));
   ("8b574e85-ff07-46bf-a753-f1271299dcf7", ("f33b22c4-e0e7-4fa6-ae2b-246ecb0a16eb", "93a60a57-a4c8-11da-a746-0800200c9a66", None, "03.00.003", "mass concentration, nickel"));
   ("f767b36f-62bf-4458-b694-ecbefd2ab970", ("f33b22c4-e0e7-4fa6-ae2b-246ecb0a16eb", "93a60a57-a4c8-11da-a746-0800200c9a66", None, "03.00.003", "nickel content"));
   ("c0447419-7139-44fe-a855-ea71e2b78585", ("77f40806-2c54-4050-97d3-d1b61eb4b0c9", "93a60a57-a4c8-11da-a746-0800200c9a66", None, "03.00.003", "mass concentration, boron"));
   ("b86d456d-a1dc-4468-a20e-b6a3f4701e32", ("77f40806-2c54-4050-97d3-d1b61eb4b0c9", "93a60a57-a4c8-11da-a746-0800200c9a66", None, "03.00.003", "boron content"));
   ("fcc233d5-ea53-4b90-9e2c-5624032a4b95", ("bd9b36ca-8240-464a-bba0-01c5210a5b66", "93a60a57-a4c8-11da-a746-0800200c9a66", None, "03.00.003", "concentration, magnesium"));
   ("d26c0a60-86aa-41c8-80ee-3acabc4a5095", ("bd9b36ca-8240-464a-bba0-01c5210a5b66", "93a60a57-a4c8-11da-a746-0800200c9a66", None, "03.00.003", "mass concentration, magnesium"));
   ("8aedc313-f49b-42cd-8d54-fc877ec03017", ("bd9b36ca-8240-464a-bba0-01c5210a5b66", "93a60a57-a4c8-11da-a746-0800200c9a66", None, "03.00.003", "magnesium content"));
   ("7b656e1b-bc07-41cd-bad4-a5b51b6287da", ("e1b01126-0456-41b5-a29a-d6bd5095b64b", "93a60a57-a4c8-11da-a746-0800200c9a66", None, "03.00.003", "mass concentration, sodium"));
   ("d3c0b420-1906-478c-8812-acfe6bf40c2e", ("e1b01126-0456-41b5-a29a-d6bd5095b64b", "93a60a57-a4c8-11da-a746-0800200c9a66", None, "03.00.003", "sodium content"));
   ("cc72d858-3a21-481e-8013-55a53976ffc2", ("0ac18236-1ef4-4d67-95c0-4aebfec7f470", "93a60a57-a4c8-11da-a746-0800200c9a66", None, "03.00.003", "mass concentration, cerium"));
   ("ea0dd556-455f-4524-b594-785505f1c0af", ("0ac18236-1ef4-4d67-95c0-4aebfec7f470", "93a60a57-a4c8-11da-a746-0800200c9a66", None, "03.00.003", "cerium content"));
   ("d271dd60-df24-4dbe-b447-7f059810a0f3", ("e57088b8-0313-45c4-b791-6fdfbb59a142", "93a60a57-a4c8-11da-a746-0800200c9a66", None, "03.00.003", "mass concentration, samarium"));
   ("82728b89-48ab-4da6-9bad-faeb8ce02d1a", ("e57088b8-0313-45c4-b791-6fdfbb59a142", "93a60a57-a4c8-11da-a746-0800200c9a66", None, "03.00.003", "samarium content"));
   ("5ec6019b-0773-4119-9d96-ed9355eaad80", ("d55035e1-5a9a-44c5-88ce-d20086ab7148", "93a60a57-a4c8-11da-a746-0800200c9a66", None, "03.00.003", "mass concentration, neodymium"));
   ("a91695f7-22e8-4b39-bd05-56aacab09a87", ("d55035e1-5a9a-44c5-88ce-d20086ab7148", "93a60a57-a4c8-11da-a746-0800200c9a66", None, "03.00.003", "neodymium content"));
   ("0b686a86-c506-4ad3-81fd-c3f39f05247d", ("7cc6f031-f747-49e0-9600-ce2a2fe5657e", "93a60a57-a4c8-11da-a746-0800200c9a66", None, "03.00.003", "mass concentration, vanadium"));
   ("dba83ee6-9127-4c81-86c9-15e29987dcdf", ("7cc6f031-f747-49e0-9600-ce2a2fe5657e", "93a60a57-a4c8-11da-a746-0800200c9a66", None, "03.00.003", "vanadium content"));
   ("28841901-be10-4b4c-b077-228b4de6e7b1", ("83c2eede-677e-43ec-98c8-1d801c7f1774", "93a60a57-a4c8-11da-a746-0800200c9a66", None, "03.00.003", "mass concentration, xenon"));
   ("59d14f7c-d6ea-4770-af4a-aa3dd6538b98", ("83c2eede-677e-43ec-98c8-1d801c7f1774", "93a60a57-a4c8-11da-a746-0800200c9a66", None, "03.00.003", "xenon content"));
   ("6c113912-2ae5-4dea-99ea-1f0ebfe39c31", ("33cf4d9a-bcbf-4fe4-926b-38f2c3e36278", "93a60a57-a4c8-11da-a746-0800200c9a66", None, "03.00.003", "mass concentration, tantalum"));
   ("43e30a6f-82ee-4f81-b799-e835163c8dcd", ("33cf4d9a-bcbf-4fe4-926b-38f2c3e36278", "93a60a57-a4c8-11da-a746-0800200c9a66", None, "03.00.003", "tantalum content"));
   ("2584546f-187b-4a1d-b246-0af9d354b46b", ("b1dd578a-f16a-4eaa-ae08-442aa2a1a2de", "93a60a57-a4c8-11da-a746-0800200c9a66", None, "03.00.003", "mass concentration, helium"));
   ("22ca28a0-51e6-4f82-9ae7-b6c22a59abb9", ("b1dd578a-f16a-4eaa-ae08-442aa2a1a2de", "93a60a57-a4c8-11da-a746-0800200c9a66", None, "03.00.003", "helium content"));
   ("d717d3e6-7f87-4c07-b1af-9458e21efaa9", ("1d85ab50-ed1e-4421-b3b8-c5197d858a0d", "93a60a57-a4c8-11da-a746-0800200c9a66", None, "03.00.003", "density argon"));
   ("da1ed753-c185-4631-9cec-45d09fcec8f4", ("1d85ab50-ed1e-4421-b3b8-c5197d858a0d", "93a60a57-a4c8-11da-a746-0800200c9a66", None, "03.00.003", "mass concentration, argon"));
   ("cd5814c6-01ff-4fe8-b4bc-225084393eb2", ("1d85ab50-ed1e-4421-b3b8-c5197d858a0d", "93a60a57-a4c8-11da-a746-0800200c9a66", None, "03.00.003", "argon content"));
   ("effa47e4-3d54-4e54-8b92-223b790f544a", ("a0f29f45-108a-4aef-8a66-aef07ed34913", "93a60a57-a4c8-11da-a746-0800200c9a66", None, "03.00.003", "concentration, iron"));
   ("ebf21bca-b7cf-45d0-9d82-bfb80519a970", ("a0f29f45-108a-4aef-8a66-aef07ed34913", "93a60a57-a4c8-11da-a746-0800200c9a66", None, "03.00.003", "mass concentration, iron"));
   ("d8364dfc-5753-4585-bf50-4d42b126f72d", ("a0f29f45-108a-4aef-8a66-aef07ed34913", "93a60a57-a4c8-11da-a746-0800200c9a66", None, "03.00.003", "iron content"));
   ("d8d0d9e1-d98a-4adb-ad4d-de0bb2a1deb3", ("e02ff80b-c3f1-4d9d-b33a-f8c3001c70b8", "93a60a57-a4c8-11da-a746-0800200c9a66", None, "03.00.003", "mass concentration, rhodium"));
   ("92dbd49f-8cf0-4510-b9c0-6b90443b328e", ("e02ff80b-c3f1-4d9d-b33a-f8c3001c70b8", "93a60a57-a4c8-11da-a746-0800200c9a66", None, "03.00.003", "rhodium content"));
   ("630eb01c-d5ad-45b2-896f-9228a893e6d8", ("e8b9419c-c36e-445f-a3a9-ace79156ac30", "93a60a57-a4c8-11da-a746-0800200c9a66", None, "03.00.003", "mass concentration, erbium"));
   ("e092deec-37ab-4f20-ad74-1460544a9911", ("e8b9419c-c36e-445f-a3a9-ace79156ac30", "93a60a57-a4c8-11da-a746-0800200c9a66", None, "03.00.003", "erbium content"));
   ("253644d1-9ec6-4373-bda4-afbdd248d5b1", ("7c367337-54f2-4fe9-8ee3-3f42681b0792", "93a60a57-a4c8-11da-a746-0800200c9a66", None, "03.00.003", "concentration, zinc"));
   ("6cc518c8-4769-40df-b2cf-03f9fe00b759", ("7c367337-54f2-4fe9-8ee3-3f42681b0792", "93a60a57-a4c8-11da-a746-0800200c9a66", None, "03.00.003", "mass concentration, zinc"));
   ("33f96fe7-39da-47ca-837f-f2c311681d1b", ("7c367337-54f2-4fe9-8ee3-3f42681b0792", "93a60a57-a4c8-11da-a746-0800200c9a66", None, "03.00.003", "zinc content"));
   ("decbd998-dc69-4964-9f82-8b9d9ca93e91", ("aaa95528-e05d-4eb4-85ff-a5445b580dcc", "93a60a57-a4c8-11da-a746-0800200c9a66", None, "03.00.003", "mass concentration, oxygen"));
   ("dbf41b1b-c7b8-4d5e-b39c-f858eb868df5", ("aaa95528-e05d-4eb4-85ff-a5445b580dcc", "93a60a57-a4c8-11da-a746-0800200c9a66", None, "03.00.003", "oxygen content"));
   ("a4d1b0a4-a4ef-429e-9fab-6dd6ea142c37", ("b8ef5a2b-ed75-4497-a061-1ecbbd79a380", "93a60a57-a4c8-11da-a746-0800200c9a66", None, "03.00.003", "mass concentration, uranium"));
   ("6b093a42-84fe-41a1-8488-0fb444a5cf9d", ("b8ef5a2b-ed75-4497-a061-1ecbbd79a380", "93a60a57-a4c8-11da-a746-0800200c9a66", None, "03.00.003", "uranium content"));
   ("adafb091-8daa-4bc9-b302-98aa221ff337", ("2651cd57-1c24-4b8e-856b-ddb63a3b267e", "93a60a57-a4c8-11da-a746-0800200c9a66", None, "03.00.003", "concentration, mercury"));
   ("a102e6f8-ebc7-450b-a39b-794be96558b7", ("2651cd57-1c24-4b8e-856b-ddb63a3b267e", "93a60a57-a4c8-11da-a746-0800200c9a66", None, "03.00.003", "mass concentration, mercury"));
   ("2a256b0b-6003-4669-a3c1-1d3eba2de45e", ("2651cd57-1c24-4b8e-856b-ddb63a3b267e", "93a60a57-a4c8-11da-a746-0800200c9a66", None, "03.00.003", "mercury content"));
   ("2d99e421-b9bd-4e09-98e4-f09478190a9b", ("b7be6dba-97f0-42f6-b173-e2c6b042fbe7", "93a60a57-a4c8-11da-a746-0800200c9a66", None, "03.00.003", "concentration, sulfur"));
   ("8175120e-a5b7-4f19-afca-5620e9e4dd8b", ("b7be6dba-97f0-42f6-b173-e2c6b042fbe7", "93a60a57-a4c8-11da-a746-0800200c9a66", None, "03.00.003", "mass concentration, particulate sulfur"));
   ("7f3410da-b91e-40d8-9545-ab269ff66900", ("b7be6dba-97f0-42f6-b173-e2c6b042fbe7", "93a60a57-a4c8-11da-a746-0800200c9a66", None, "03.00.003", "mass concentration, sulfur"));
   ("f6c7ebbb-902a-412f-a55b-0743aea00238", ("b7be6dba-97f0-42f6-b173-e2c6b042fbe7", "93a60a57-a4c8-11da-a746-0800200c9a66", None, "03.00.003", "sulfur content"));
   ("e4504511-88b5-4b01-a537-e049f056668c", ("d4f76a48-d1c9-4c49-a46e-b61feb974ac4", "93a60a57-a4c8-11da-a746-0800200c9a66", None, "03.00.003", "mass concentration, bromine"));
   ("6b90d16b-f20b-4b53-abc2-763f9455dc05", ("d4f76a48-d1c9-4c49-a46e-b61feb974ac4", "93a60a57-a4c8-11da-a746-0800200c9a66", None, "03.00.003", "bromine content"));
   ("058d6d50-172b-4a8a-97da-0cee759eca7d", ("825ef2f3-f706-4c47-8f8d-ee9ddbab3b43", "93a60a57-a4c8-11da-a746-0800200c9a66", None, "03.00.003", "mass concentration, tungsten"));
   ("84916b80-bf93-4e20-9b7c-593aa9518d09", ("825ef2f3-f706-4c47-8f8d-ee9ddbab3b43", "93a60a57-a4c8-11da-a746-0800200c9a66", None, "03.00.003", "tungsten content"));
   ("3e1978a6-47f8-4e31-8a83-79053a0e715e", ("fa94ba11-2720-441d-b432-a2774f3ab1ad", "93a60a57-a4c8-11da-a746-0800200c9a66", None, "03.00.003", "mass concentration, gold"));
   ("ee301bc4-052a-40c2-a5d7-76fa6e429aa5", ("fa94ba11-2720-441d-b432-a2774f3ab1ad", "93a60a57-a4c8-11da-a746-0800200c9a66", None, "03.00.003", "gold content"));
   ("e38c9209-6934-4445-b180-675bcbd5ad7a", ("6827435e-8ad9-44c1-b0b4-b26f321957b1", "93a60a57-a4c8-11da-a746-0800200c9a66", None, "03.00.003", "concentration, potassium"));
   ("8b49eeb7-9caf-4101-b516-eb0aef30d530", ("6827435e-8ad9-44c1-b0b4-b26f321957b1", "93a60a57-a4c8-11da-a746-0800200c9a66", None, "03.00.003", "mass concentration, potassium"));
   ("ca949a93-0642-4d1d-83bf-52faf10f2329", ("6827435e-8ad9-44c1-b0b4-b26f321957b1", "93a60a57-a4c8-11da-a746-0800200c9a66", None, "03.00.003", "potassium content"));
   ("79baac3d-9e62-45ef-8f41-440dea32f11f", ("b8a29b5f-1e7e-4f15-881f-e802e42551eb", "93a60a57-a4c8-11da-a746-0800200c9a66", None, "03.00.003", "mass concentration, thallium"));
   ("608190bf-8f74-4f8e-8544-f25377accf4d", ("b8a29b5f-1e7e-4f15-881f-e802e42551eb", "93a60a57-a4c8-11da-a746-0800200c9a66", None, "03.00.003", "thallium content"));
   ("e9164ff3-fd2d-4050-895d-0e0a42317be2", ("02f11c31-4bb8-41de-81fb-fb479f361eb9", "93a60a57-a4c8-11da-a746-0800200c9a66", None, "03.00.003", "mass concentration, iodine"));
   ("b3026066-b632-4c47-a27e-c13f4a3489fb", ("02f11c31-4bb8-41de-81fb-fb479f361eb9", "93a60a57-a4c8-11da-a746-0800200c9a66", None, "03.00.003", "iodine content"));
   ("abc78955-bd5f-4b1a-9607-0448dd75ebf2", ("282882cf-a5e5-4170-82dd-8e84da2724d2", "93a60a57-a4c8-11da-a746-0800200c9a66", None, "03.00.003", "mass concentration, titanium"));
   ("e9fa11a1-1011-421d-aa34-0544d767a632", ("282882cf-a5e5-4170-82dd-8e84da2724d2", "93a60a57-a4c8-11da-a746-0800200c9a66", None, "03.00.003", "titanium content"));
   ("b321f120-4db7-4e7c-a196-82a231023052", ("cefa9508-86b9-4fad-824e-bbf9d6fdd6f9", "93a60a57-a4c8-11da-a746-0800200c9a66", None, "03.00.003", "mass concentration, arsenic"));
   ("30f0aa15-2d50-4f09-af94-683b6dd68adc", ("cefa9508-86b9-4fad-824e-bbf9d6fdd6f9", "93a60a57-a4c8-11da-a746-0800200c9a66", None, "03.00.003", "arsenic content"));
   ("98f985da-d0b2-4325-af0c-9e421a2ba950", ("ab654e01-766b-411b-8902-cd6a9c40e55e", "93a60a57-a4c8-11da-a746-0800200c9a66", None, "03.00.003", "mass concentration, palladium"));
   ("999af43a-1a83-4231-ba3c-600b1941b3a0", ("ab654e01-766b-411b-8902-cd6a9c40e55e", "93a60a57-a4c8-11da-a746-0800200c9a66", None, "03.00.003", "palladium content"));
   ("9a08745d-e89e-477c-81a9-2ea81a44547c", ("0ab79a5f-7fd7-4d5d-be55-559292c958d3", "93a60a57-a4c8-11da-a746-0800200c9a66", None, "03.00.003", "concentration, copper"));
   ("e7451d8a-77af-44e0-86cf-ccd17ac84509", ("0ab79a5f-7fd7-4d5d-be55-559292c958d3", "93a60a57-a4c8-11da-a746-0800200c9a66", None, "03.00.003", "mass concentration, copper"));
   ("0132d97c-5f19-4397-9197-59ab801b10cf", ("0ab79a5f-7fd7-4d5d-be55-559292c958d3", "93a60a57-a4c8-11da-a746-0800200c9a66", None, "03.00.003", "copper content"));
   ("aa897226-0a91-40e5-aa05-4bae3b9e4213", ("92f2d417-544a-4fd1-bde7-25967ef93586", "93a60a57-a4c8-11da-a746-0800200c9a66", None, "03.00.003", "mass concentration, molybdenum"));
   ("83f67a9e-bf78-4e0d-b1f0-5051a1fda9fe", ("92f2d417-544a-4fd1-bde7-25967ef93586", "93a60a57-a4c8-11da-a746-0800200c9a66", None, "03.00.003", "molybdenum content"));
   ("69394b67-d859-4887-a7a2-64dec0ecdbd8", ("037f9009-8b06-470d-a190-21448f7921c7", "93a60a57-a4c8-11da-a746-0800200c9a66", None, "03.00.003", "concentration, lead"));
   ("71bc04b9-abfe-4f30-ab8f-ba654c7ad296", ("037f9009-8b06-470d-a190-21448f7921c7", "93a60a57-a4c8-11da-a746-0800200c9a66", None, "03.00.003", "mass concentration, lead"));
   ("e5507d89-78ad-4746-900c-b9afa5a62ea6", ("037f9009-8b06-470d-a190-21448f7921c7", "93a60a57-a4c8-11da-a746-0800200c9a66", None, "03.00.003", "lead content"));
   ("291c5be3-dd62-4e12-a0bd-48c3e694169a", ("935e0cbe-3369-4537-8019-4157cf929304", "93a60a57-a4c8-11da-a746-0800200c9a66", None, "03.00.003", "mass concentration, terbium"));
   ("ff25f3c3-5f43-4ac0-bb13-d8ecc6fc7b75", ("935e0cbe-3369-4537-8019-4157cf929304", "93a60a57-a4c8-11da-a746-0800200c9a66", None, "03.00.003", "terbium content"));
   ("8d27623b-147c-44e8-93cc-2183eac22991", ("5a2556bf-a9ec-4720-9253-d40f1de3c2b8", "93a60a57-a4c8-11da-a746-0800200c9a66", None, "03.00.003", "mass concentration, manganese"));
   ("2bc683e4-3780-4f00-8c1d-fd53e05cfde7", ("5a2556bf-a9ec-4720-9253-d40f1de3c2b8", "93a60a57-a4c8-11da-a746-0800200c9a66", None, "03.00.003", "manganese content"));
   ("71ff1af9-6834-46e8-b392-e73cbe898dae", ("0b12d18f-0c7c-44da-8c52-dc3278f917c7", "93a60a57-a4c8-11da-a746-0800200c9a66", None, "03.00.003", "mass concentration, ytterbium"));
   ("65387d28-9b09-44d2-9908-663c18b740a3", ("0b12d18f-0c7c-44da-8c52-dc3278f917c7", "93a60a57-a4c8-11da-a746-0800200c9a66", None, "03.00.003", "ytterbium content"));
   ("ed62dbf5-82e7-4432-ac6a-9be3172c41fd", ("e4225227-7855-41ce-ba57-a5314fdcdcf1", "93a60a57-a4c8-11da-a746-0800200c9a66", None, "03.00.003", "mass concentration, gadolinium"));
   ("f576f1a0-d669-4063-9309-82c4af778bb4", ("e4225227-7855-41ce-ba57-a5314fdcdcf1", "93a60a57-a4c8-11da-a746-0800200c9a66", None, "03.00.003", "gadolinium content"));
   ("67065577-4705-4ece-a892-6dd1d7ecd1e5", ("607a33e0-28ed-42f8-ac8c-66f0c9700e56", "93a60a57-a4c8-11da-a746-0800200c9a66", None, "03.00.003", "mass concentration, silicon"));
   ("dd7e15dc-c438-43f7-9c0d-d0a627163cf1", ("607a33e0-28ed-42f8-ac8c-66f0c9700e56", "93a60a57-a4c8-11da-a746-0800200c9a66", None, "03.00.003", "silicon content"));
   ("e629f248-28bc-40c8-a7e8-f1c216e7eb1d", ("98eec5a0-44db-411a-a502-95139090bc61", "93a60a57-a4c8-11da-a746-0800200c9a66", None, "03.00.003", "mass concentration, iridium"));
   ("0650a63d-be1c-49b6-94c5-d0dc2acc35d6", ("98eec5a0-44db-411a-a502-95139090bc61", "93a60a57-a4c8-11da-a746-0800200c9a66", None, "03.00.003", "iridium content"));
   ("b3fdadf7-9e1d-42bd-b36c-1744c7565539", ("b3f0f892-c5a3-4c66-a432-c09e3d1e9bd6", "59f191d6-5dd3-4553-af88-1a32accfe308", None, "03.00.003", "lifetime capacity [kg*day]"));
   ("46971dec-a716-4891-a5b7-5bebce5f3cdf", ("838aaa20-0117-11db-92e3-0800200c9a66", "838aaa21-0117-11db-92e3-0800200c9a66", None, "03.00.000", "lifetime capacity [metric ton*km]"));
   ("38583c32-c20b-4553-9152-b14b0bee1e61", ("93a60a56-a3c8-11da-a746-0800200b9a66", "93a60a57-a4c8-11da-a746-0800200c9a66", None, "03.00.003", "lifetime capacity [kg]"));
   ("aefe9fab-ed23-4060-a35d-d24d5281926c", ("93a60a56-a3c8-22da-a746-0800200c9a66", "93a60a57-a3c8-12da-a746-0800200c9a66", None, "03.00.003", "lifetime capacity [l]"));
   ("93bfda45-49f5-44bd-beb0-91b38dde4035", ("c0447923-0e60-4b3c-97c2-a86dddd9eea5", "af638906-3ec7-4314-8de7-f76039f2dd01", None, "03.00.000", "lifetime capacity [h]"));
   ("ec1f2209-1f53-40d5-bc53-67f388c82f5a", ("93a60a56-a3c8-11da-a746-0800200c9a66", "93a60a57-a3c8-11da-a746-0800200c9a66", None, "03.00.003", "lifetime capacity [kWh]"));
   ("11d072f8-37fc-41c2-80b2-ebba4f301b49", ("93a60a56-a3c8-11da-a746-0800200c9a66", "93a60a57-a3c8-11da-a746-0800200c9a66", None, "03.00.003", "lifetime capacity [MJ]"));
   ("a01597eb-34e2-4057-a7c7-e27bfdca34d1", ("93a60a56-a3c8-22da-a746-0800200c9a66", "93a60a57-a3c8-12da-a746-0800200c9a66", None, "03.00.003", "lifetime capacity in m3"));
   ("5b66c906-de94-4a06-9037-498de5498f82", ("01846770-4cfe-4a25-8ad9-919d8d378345", "5beb6eed-33a9-47b8-9ede-1dfe8f679159", None, "03.00.004", "lifetime capacity"));
   ("350b57a1-2b58-49e8-96bd-c9a4be6b4625", ("01846770-4cfe-4a25-8ad9-919d8d378345", "5beb6eed-33a9-47b8-9ede-1dfe8f679159", None, "03.00.004", "lifetime capacity [unit]"));
   ("964f8b50-ce16-4364-835a-a3db5fb760b0", ("c0447923-0e60-4b3c-97c2-a86dddd9eea5", "af638906-3ec7-4314-8de7-f76039f2dd01", None, "03.00.000", "lifetime"))].
Record to_row := ToRow { r_id : pystr; r_group : pystr; r_unit : option pystr; r_version : pystr; r_name : pystr }.
Definition to_fp : list (pystr * to_row) :=
  map (fun r => match snd r with (i, g, u, v, n) => (lit (fst r), ToRow (lit i) (lit g) (option_map lit u) (lit v) (lit n)) end) to_fp_source.

(** 1577-1602 and [get_dict] of ILCD1Reference: a reference that is not to a flow.  The description is a text of a table or fixed,
    so it is neither blank nor longer than 1000 characters. *)
Definition ref_dict (type_ folder id version desc : pystr) : pyval :=
  VDict [(lit "@type", VStr (type_ ++ lit " data set")); (lit "@refObjectId", VStr id); (lit "@version", VStr version);
         (lit "@uri", VStr (lit "../" ++ folder ++ lit "/" ++ id));
         (lit "common:shortDescription", VList [VDict [(lit "@xml:lang", VStr (lit "en")); (ktext, VStr desc)]])].
(** A property on its way: its row, the value, the values of the uncertainty by their fields, the comment by languages (C10). *)
Record draft := Draft { d_row : to_row; d_mean : pyval; d_uncertainty : list (pystr * pyval); d_comment : list (pystr * pystr) }.
(** [get_dict] of ILCD1FlowProperty *)
Definition property_dict (number : nat) (p : draft) : pyval :=
  VDict ([(lit "@dataSetInternalID", VInt (Z.of_nat number));
          (lit "referenceToFlowPropertyDataSet",
           VList [ref_dict (lit "flow property") (lit "flowproperties") (r_id (d_row p)) (r_version (d_row p)) (r_name (d_row p))]);
          (lit "meanValue", d_mean p)] ++
         d_uncertainty p ++
         match d_comment p with
         | [] => []
         | c => [(lit "generalComment", VList (map (fun ls => VDict [(lit "@xml:lang", VStr (fst ls)); (ktext, VStr (snd ls))]) c))]
         end).
(** 738-745: the number of a property with a counterpart and a unit; 1049-1052, 1190-1191: those that are kept are written *)
Fixpoint property_dicts (n : nat) (l : list (bool * draft)) : list pyval :=
  match l with
  | [] => []
  | (keep, p) :: l' => (if keep : bool then [property_dict n p] else []) ++ property_dicts (S n) l'
  end.
(** 870-920 [get_unit_property]; [key]: from the dimension (C90) *)
Definition unit_draft (row : to_row) : draft := Draft row (VFloat (Fin 1%Q)) [] [(lit "en", lit "Main flow unit")].
Definition unit_property (key : pystr) : result pyval :=
  match getf key to_fp with
  | Some row => Ok (property_dict 0 (unit_draft row))
  | None => Err ValueError
  end.

(** ** The flow data set *)
(** [d.pop(k)] followed by [d[k] = ...] *)
Definition move_last (k : pystr) (d : list (pystr * pyval)) : list (pystr * pyval) :=
  match getf k d with
  | Some v => filter (fun kv => negb (str_eqb (fst kv) k)) d ++ [(k, v)]
  | None => d
  end.
Definition sub_dict (k : pystr) (f : list (pystr * pyval) -> list (pystr * pyval)) (d : list (pystr * pyval)) : list (pystr * pyval) :=
  match getf k d with Some (VDict e) => putf k (VDict (f e)) d | _ => d end.
Definition update (e d : list (pystr * pyval)) : list (pystr * pyval) := fold_left (fun d kv => putf (fst kv) (snd kv) d) e d.
Definition capital (s : pystr) : pystr :=
  match s with c :: r => (if (N.leb 97 c && N.leb c 122)%bool then (c - 32)%N else c) :: r | [] => [] end.
(** 1432-1456; [str.capitalize] on the lower-case names of the data sets *)
Definition base_structure (name uuid version now : pystr) : list (pystr * pyval) :=
  [(lit "@version", VStr (lit "1.1"));
   (lit "@xmlns", VStr (lit "http://lca.jrc.it/ILCD/" ++ capital name));
   (lit "@xmlns:common", VStr common_space);
   (name ++ lit "Information", VDict [(lit "dataSetInformation", VDict [(lit "common:UUID", VStr uuid)])]);
   (lit "administrativeInformation",
    VDict [(lit "dataEntryBy",
            VDict [(lit "common:timeStamp", VStr now);
                   (lit "common:referenceToDataSetFormat",
                    ref_dict (lit "source") (lit "sources") (lit "a97a0155-0234-4b87-b4ce-a45da52f2a40") (lit "03.00.000") (lit "ILCD Format"))]);
           (lit "publicationAndOwnership", VDict [(lit "common:dataSetVersion", VStr version)])])].
Definition english_text (v : pyval) : pyval := VDict [(lit "@xml:lang", VStr (lit "en")); (ktext, v)].
(** [get_dict] of ILCD1Classification: the name of a system, and its classes with level, identifier and text *)
Record class_entry := ClassEntry { c_system : pystr; c_classes : list (Z * pystr * pystr) }.
Definition class_dict (c : class_entry) : pyval :=
  VDict [(lit "@name", VStr (c_system c));
         (lit "common:class", VList (map (fun k => match k with (l, i, t) => VDict [(lit "@level", VInt l); (lit "@classId", VStr i); (ktext, VStr t)] end) (c_classes c)))].
(** what 1196-1209 pass on *)
Record flow_info := FlowInfo { f_name : pyval; f_synonyms : pystr; f_classes : list class_entry; f_cas : pyval; f_comment : pystr;
                               f_type : pyval; f_props : list pyval }.
(** 1512-1537; the synonyms are a text and never equal to the empty list *)
Definition flow_structure (uuid version now : pystr) (i : flow_info) : pyval :=
  let dsi := [(lit "name", VDict [(lit "baseName", english_text (f_name i))]);
              (lit "common:synonyms", VStr (f_synonyms i))] ++
             match f_classes i with
             | [] => []
             | l => [(lit "classificationInformation", VDict [(lit "common:classification", VList (map class_dict l))])]
             end ++
             (if truth (f_cas i) then [(lit "CASNumber", f_cas i)] else []) ++
             [(lit "common:generalComment", VStr (f_comment i))] in
  let d := base_structure (lit "flow") uuid version now in
  let d := sub_dict (lit "flowInformation") (fun e => putf (lit "quantitativeReference")
             (VDict [(lit "referenceToReferenceFlowProperty", VStr (lit "0"))])
             (sub_dict (lit "dataSetInformation") (update dsi) e)) d in
  let d := putf (lit "modellingAndValidation") (VDict [(lit "LCIMethod", VDict [(lit "typeOfDataSet", f_type i)])]) d in
  let d := putf (lit "flowProperties") (VDict [(lit "flowProperty", VList (f_props i))]) d in
  let d := fold_left (fun d k => move_last (lit k) d)
             ["flowInformation"; "modellingAndValidation"; "administrativeInformation"; "flowProperties"] d in
  VDict [(lit "flowDataSet", VDict d)].

(** ** Exchanges *)
(** [n["#text"]] *)
Definition texts (l : list pyval) : result (list pyval) := mapM text_item l.
Definition strs (l : list pyval) : result (list pystr) := mapM (fun v => match v with VStr s => Ok s | _ => Err TypeError end) l.
(** 1186 *)
Definition name_texts (x : list (pystr * pyval)) : result (list pyval) :=
  bind (item x (lit "name")) (fun v => bind (ensure_list v false) texts).
(** 1187-1188 *)
Definition synonym_text (x : list (pystr * pyval)) : result pystr :=
  bind (ensure_list (match getf (lit "synonym") x with Some v => v | None => VDict [] end) false) (fun l =>
  bind (texts (filter truth l)) (fun ts => bind (strs ts) (fun ss => Ok (join (lit "; ") ss)))).
(** 1202: the condition asks for another key *)
Definition cas_number (x : list (pystr * pyval)) : pyval :=
  if given x (lit "casNumber") then match getf (at_ "casNumber") x with Some v => v | None => VNone end else VNone.
Section Flows.
  (** [uuid_from_uuid] with the key of this conversion *)
  Context (uid : pystr -> result pystr) (show : pyval -> pystr) (now : pystr).
  (** 1185-1211, 1458-1463: the name of the file and its content.  [classes]: C124-C126; [kind]: C93; [key], [ps]: the
      properties; the name and the identifier are texts. *)
  Definition make_flow (x : list (pystr * pyval)) (classes : list class_entry) (kind : option pystr) (key : pystr)
    (ps : list (bool * draft)) (version : pystr) : result (pystr * pystr * pyval) :=
    bind (name_texts x) (fun ns =>
    bind (synonym_text x) (fun syn =>
    bind (unit_property key) (fun u =>
    match ns with
    | [] => Err IndexError
    | n :: _ =>
        bind (item x (at_ "intermediateExchangeId")) (fun f =>
        match f with
        | VStr fid =>
            bind (uid fid) (fun id =>
            Ok (id, id ++ lit "_" ++ version,
                flow_structure id version now
                  (FlowInfo n syn classes (cas_number x)
                     (lit "Ecospold 2 exchange, IntermediateExchangeID = " ++ fid)
                     (match kind with Some k => VStr k | None => VNone end)
                     (u :: property_dicts 1 ps))))
        | _ => Err AttributeError
        end)
    end))).
  (** the written document *)
  Definition flow_file (x : list (pystr * pyval)) (classes : list class_entry) (kind : option pystr) (key : pystr)
    (ps : list (bool * draft)) (version : pystr) : result (pystr * elem) :=
    bind (make_flow x classes kind key ps version) (fun r => bind (unparse show (snd r)) (fun e => Ok (fst (fst r), e))).
End Flows.
(** 945-946, 1122-1125 and 1171-1173: the comment of an exchange, without the tags (C128) and the uncertainty (C84-C86); the index of
    a text is left out (C79) *)
Definition exchange_notes (language : pyval) (x : list (pystr * pyval)) : result (list note) :=
  let comments k prefix ensure :=
    bind (ensure_list (match getf (lit k) x with Some v => v | None => VDict [] end) ensure) (mapM (add_note language (lit prefix))) in
  bind (comments "comment" "" true) (fun own =>
  bind (if given x (at_ "productionVolumeAmount") then comments "productionVolumeComment" "Production Volume Comment: " false else Ok []) (fun vol =>
  bind (if given x (lit "activityLinkId")
        then match getf (lit "activityLinkId") x with
             | Some (VStr s) => Ok [(VStr (lit "en"), lit "Ecoinvent activity linkable id: " ++ s)]
             | _ => Err OtherError
             end
        else Ok []) (fun link => Ok (own ++ vol ++ link)))).

(** ** Versions *)
(** 1564-1569 [produce_new_version]: [version[2]] and [int]; an elementary flow is referred to with [add] zero (1358-1361, 1371, 1604-1609) *)
Definition dec_digits (s : pystr) : option N :=
  match s with
  | [] => None
  | _ => fold_left (fun a c => match a with
                               | Some n => if (N.leb 48 c && N.leb c 57)%bool then Some (10 * n + (c - 48))%N else None
                               | None => None
                               end) s (Some 0%N)
  end.
Definition pad3 (s : pystr) : pystr := repeat (ch "0") (3 - length s) ++ s.
Definition new_version (v : pystr) (add : N) : result pystr :=
  match split (lit ".") v with
  | a :: b :: c :: _ => match dec_digits c with
                        | Some n => Ok (a ++ lit "." ++ b ++ lit "." ++ pad3 (str_of_N (n + add)))
                        | None => Err ValueError
                        end
  | _ => Err IndexError
  end.
