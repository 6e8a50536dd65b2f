(* Documents for the examples, printed by tools/gen_docs.py from tools/docs. *)
From Verif Require Import Str Json.

Definition doc30 : json :=
  JObj [
    ("openapi", JStr "3.0.3");
    ("info", JObj [
      ("title", JStr "Pets");
      ("description", JStr "All pets");
      ("version", JStr "1.0");
      ("contact", JObj [("name", JStr "n"); ("email", JStr "a@b")]);
      ("license", JObj [("name", JStr "MIT")]);
      ("x-info", JArr [JNum (Qmake (1) 1); JNum (Qmake (2) 1)])]);
    ("servers", JArr [
      JObj [
        ("url", JStr "https://{h}");
        ("variables", JObj [("h", JObj [("default", JStr "a"); ("enum", JArr [JStr "a"; JStr "b"])])])]]);
    ("security", JArr [JObj [("key", JArr [])]]);
    ("tags", JArr [JObj [("name", JStr "pets"); ("externalDocs", JObj [("url", JStr "u")])]]);
    ("paths", JObj [
      ("/pets/{id}", JObj [
        ("summary", JStr "s");
        ("parameters", JArr [JObj [("$ref", JStr "#/components/parameters/P")]]);
        ("get", JObj [
          ("tags", JArr [JStr "pets"]);
          ("operationId", JStr "getPet");
          ("parameters", JArr [
            JObj [
              ("name", JStr "id");
              ("in", JStr "path");
              ("required", JBool true);
              ("schema", JObj [("type", JStr "integer"); ("minimum", JNum (Qmake (1) 1)); ("exclusiveMinimum", JBool true)]);
              ("style", JStr "label")];
            JObj [
              ("name", JStr "q");
              ("in", JStr "query");
              ("style", JStr "form");
              ("explode", JBool true);
              ("content", JObj [("application/json", JObj [("schema", JObj [("$ref", JStr "#/components/schemas/Pet")])])])];
            JObj [
              ("name", JStr "X-H");
              ("in", JStr "header");
              ("schema", JObj [("type", JStr "string"); ("enum", JArr [JStr "a"; JNull; JNum (Qmake (3) 1)])]);
              ("example", JNull)]]);
          ("responses", JObj [
            ("200", JObj [
              ("description", JStr "ok");
              ("headers", JObj [
                ("X-Rate", JObj [("schema", JObj [("type", JStr "integer")])]);
                ("X-Ref", JObj [("$ref", JStr "#/components/headers/H")])]);
              ("content", JObj [
                ("application/json", JObj [
                  ("schema", JObj [("$ref", JStr "#/components/schemas/Pet")]);
                  ("example", JObj [("name", JStr "rex"); ("x", JArr [JNum (Qmake (1) 1); JObj [("y", JNull)]])])])]);
              ("links", JObj [
                ("next", JObj [("operationId", JStr "getPet"); ("parameters", JObj [("id", JStr "$response.body")])])])]);
            ("4XX", JObj [("$ref", JStr "#/components/responses/E")]);
            ("default", JObj [("description", JStr "other")]);
            ("x-r", JNum (Qmake (1) 1))]);
          ("callbacks", JObj [
            ("cb", JObj [
              ("{$request.body#/url}", JObj [("post", JObj [("responses", JObj [("204", JObj [("description", JStr "none")])])])]);
              ("x-cb", JBool true)]);
            ("cr", JObj [("$ref", JStr "#/components/callbacks/C")])]);
          ("deprecated", JBool true);
          ("security", JArr [JObj []]);
          ("x-op", JObj [("a", JNum (Qmake (1) 1))])]);
        ("post", JObj [
          ("requestBody", JObj [
            ("content", JObj [
              ("multipart/form-data", JObj [
                ("schema", JObj [
                  ("type", JStr "object");
                  ("properties", JObj [("f", JObj [("type", JStr "string"); ("format", JStr "binary")])])]);
                ("encoding", JObj [("f", JObj [("contentType", JStr "image/png"); ("style", JStr "form")])])])]);
            ("required", JBool true)]);
          ("responses", JObj [("201", JObj [("description", JStr "made")])])])]);
      ("x-paths", JStr "y")]);
    ("components", JObj [
      ("schemas", JObj [
        ("Pet", JObj [
          ("title", JStr "Pet");
          ("type", JStr "object");
          ("required", JArr [JStr "name"]);
          ("properties", JObj [
            ("name", JObj [("type", JStr "string"); ("maxLength", JNum (Qmake (10) 1))]);
            ("tag", JObj [("nullable", JBool true); ("allOf", JArr [JObj [("$ref", JStr "#/components/schemas/Tag")]])])]);
          ("additionalProperties", JBool false);
          ("discriminator", JObj [("propertyName", JStr "kind"); ("mapping", JObj [("cat", JStr "Cat")])]);
          ("xml", JObj [("name", JStr "pet"); ("wrapped", JBool true)])]);
        ("Tag", JObj [
          ("oneOf", JArr [JObj [("type", JStr "string")]; JObj [("type", JStr "integer")]]);
          ("not", JObj [("type", JStr "boolean")]);
          ("additionalProperties", JObj [("type", JStr "string")]);
          ("default", JObj [("k", JArr [])]);
          ("multipleOf", JNum (Qmake (1) 2))])]);
      ("responses", JObj [("E", JObj [("description", JStr "error")])]);
      ("parameters", JObj [
        ("P", JObj [
          ("name", JStr "c");
          ("in", JStr "cookie");
          ("schema", JObj [("type", JStr "string")]);
          ("style", JStr "form")])]);
      ("examples", JObj [
        ("ex", JObj [("summary", JStr "s"); ("value", JArr [JNum (Qmake (1) 1); JStr "a"])]);
        ("er", JObj [("$ref", JStr "#/components/examples/ex")])]);
      ("requestBodies", JObj [("B", JObj [("content", JObj [("text/plain", JObj [])])])]);
      ("headers", JObj [("H", JObj [("description", JStr "h"); ("schema", JObj [("type", JStr "string")])])]);
      ("securitySchemes", JObj [
        ("key", JObj [("type", JStr "apiKey"); ("name", JStr "k"); ("in", JStr "header")]);
        ("basic", JObj [("type", JStr "http"); ("scheme", JStr "basic")]);
        ("jwt", JObj [("type", JStr "http"); ("scheme", JStr "bearer"); ("bearerFormat", JStr "JWT")]);
        ("o", JObj [
          ("type", JStr "oauth2");
          ("flows", JObj [
            ("implicit", JObj [("authorizationUrl", JStr "a"); ("scopes", JObj [("r", JStr "read")])]);
            ("authorizationCode", JObj [("authorizationUrl", JStr "a"); ("tokenUrl", JStr "t")])])]);
        ("oid", JObj [("type", JStr "openIdConnect"); ("openIdConnectUrl", JStr "u")]);
        ("ref", JObj [("$ref", JStr "#/components/securitySchemes/key")])]);
      ("links", JObj [("L", JObj [("operationRef", JStr "r"); ("server", JObj [("url", JStr "s")])])]);
      ("callbacks", JObj [
        ("C", JObj [
          ("http://x", JObj [("put", JObj [("responses", JObj [("2XX", JObj [("description", JStr "d")])])])])])]);
      ("x-c", JNull)]);
    ("x-spec", JObj [("deep", JArr [JObj [("a", JNum (Qmake (5) 4))]])])].

Definition doc31 : json :=
  JObj [
    ("openapi", JStr "3.1.0");
    ("info", JObj [
      ("title", JStr "Pets");
      ("summary", JStr "sum");
      ("description", JStr "All pets");
      ("version", JStr "1.0");
      ("contact", JObj [("name", JStr "n"); ("email", JStr "a@b")]);
      ("license", JObj [("name", JStr "MIT"); ("identifier", JStr "MIT")]);
      ("x-info", JArr [JNum (Qmake (1) 1); JNum (Qmake (2) 1)])]);
    ("jsonSchemaDialect", JStr "d");
    ("servers", JArr [
      JObj [
        ("url", JStr "https://{h}");
        ("variables", JObj [("h", JObj [("default", JStr "a"); ("enum", JArr [JStr "a"; JStr "b"])])])]]);
    ("security", JArr [JObj [("key", JArr [])]]);
    ("tags", JArr [JObj [("name", JStr "pets"); ("externalDocs", JObj [("url", JStr "u")])]]);
    ("paths", JObj [
      ("/pets/{id}", JObj [
        ("summary", JStr "s");
        ("parameters", JArr [JObj [("$ref", JStr "#/components/parameters/P")]]);
        ("get", JObj [
          ("tags", JArr [JStr "pets"]);
          ("operationId", JStr "getPet");
          ("parameters", JArr [
            JObj [
              ("name", JStr "id");
              ("in", JStr "path");
              ("required", JBool true);
              ("schema", JObj [
                ("type", JStr "integer");
                ("minimum", JNum (Qmake (1) 1));
                ("exclusiveMinimum", JNum (Qmake (0) 1))])];
            JObj [
              ("name", JStr "q");
              ("in", JStr "query");
              ("style", JStr "form");
              ("explode", JBool true);
              ("content", JObj [("application/json", JObj [("schema", JObj [("$ref", JStr "#/components/schemas/Pet")])])])];
            JObj [
              ("name", JStr "X-H");
              ("in", JStr "header");
              ("schema", JObj [("type", JStr "string"); ("enum", JArr [JStr "a"; JNull; JNum (Qmake (3) 1)])])]]);
          ("responses", JObj [
            ("200", JObj [
              ("description", JStr "ok");
              ("headers", JObj [
                ("X-Rate", JObj [("schema", JObj [("type", JStr "integer")])]);
                ("X-Ref", JObj [("$ref", JStr "#/components/headers/H")])]);
              ("content", JObj [
                ("application/json", JObj [
                  ("schema", JObj [("$ref", JStr "#/components/schemas/Pet")]);
                  ("example", JObj [("name", JStr "rex"); ("x", JArr [JNum (Qmake (1) 1); JObj [("y", JNull)]])])])]);
              ("links", JObj [
                ("next", JObj [("operationId", JStr "getPet"); ("parameters", JObj [("id", JStr "$response.body")])])])]);
            ("4XX", JObj [("$ref", JStr "#/components/responses/E")]);
            ("default", JObj [("description", JStr "other")]);
            ("x-r", JNum (Qmake (1) 1))]);
          ("callbacks", JObj [
            ("cb", JObj [
              ("{$request.body#/url}", JObj [("post", JObj [("responses", JObj [("204", JObj [("description", JStr "none")])])])]);
              ("x-cb", JBool true)])]);
          ("deprecated", JBool true);
          ("security", JArr [JObj []]);
          ("x-op", JObj [("a", JNum (Qmake (1) 1))])]);
        ("post", JObj [
          ("requestBody", JObj [
            ("content", JObj [
              ("multipart/form-data", JObj [
                ("schema", JObj [
                  ("type", JStr "object");
                  ("properties", JObj [("f", JObj [("type", JStr "string"); ("format", JStr "binary")])])]);
                ("encoding", JObj [("f", JObj [("contentType", JStr "image/png"); ("style", JStr "form")])])])]);
            ("required", JBool true)]);
          ("responses", JObj [("201", JObj [("description", JStr "made")])])])]);
      ("x-paths", JStr "y")]);
    ("webhooks", JObj [
      ("evt", JObj [("post", JObj [("responses", JObj [("200", JObj [("description", JStr "ok")])])])])]);
    ("components", JObj [
      ("schemas", JObj [
        ("Pet", JObj [
          ("type", JArr [JStr "object"; JStr "null"]);
          ("properties", JObj [("name", JObj [("type", JStr "string")])])])]);
      ("responses", JObj [("E", JObj [("description", JStr "error")])]);
      ("parameters", JObj [
        ("P", JObj [
          ("name", JStr "c");
          ("in", JStr "cookie");
          ("schema", JObj [("type", JStr "string")]);
          ("style", JStr "form")])]);
      ("requestBodies", JObj [("B", JObj [("content", JObj [("text/plain", JObj [])])])]);
      ("headers", JObj [("H", JObj [("description", JStr "h"); ("schema", JObj [("type", JStr "string")])])]);
      ("securitySchemes", JObj [
        ("key", JObj [
          ("type", JStr "apiKey");
          ("name", JStr "k");
          ("in", JStr "header");
          ("description", JStr "d")]);
        ("basic", JObj [("type", JStr "http"); ("scheme", JStr "basic")]);
        ("jwt", JObj [("type", JStr "http"); ("scheme", JStr "Bearer"); ("bearerFormat", JStr "JWT")]);
        ("o", JObj [
          ("type", JStr "oauth2");
          ("flows", JObj [
            ("implicit", JObj [("authorizationUrl", JStr "a"); ("scopes", JObj [("r", JStr "read")])]);
            ("authorizationCode", JObj [("authorizationUrl", JStr "a"); ("tokenUrl", JStr "t"); ("scopes", JObj [])])])]);
        ("oid", JObj [("type", JStr "openIdConnect"); ("openIdConnectUrl", JStr "u")]);
        ("tls", JObj [("type", JStr "mutualTLS")]);
        ("ref", JObj [("$ref", JStr "#/components/securitySchemes/key"); ("summary", JStr "s")])]);
      ("links", JObj [("L", JObj [("operationRef", JStr "r")])])]);
    ("x-spec", JObj [("deep", JArr [JObj [("a", JNum (Qmake (5) 4))]])])].
