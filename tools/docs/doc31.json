{"openapi":"3.1.0","info":{"title":"Pets","summary":"sum","description":"All pets","version":"1.0","contact":{"name":"n","email":"a@b"},"license":{"name":"MIT","identifier":"MIT"},"x-info":[1,2]},
"jsonSchemaDialect":"d",
"servers":[{"url":"https://{h}","variables":{"h":{"default":"a","enum":["a","b"]}}}],
"security":[{"key":[]}],"tags":[{"name":"pets","externalDocs":{"url":"u"}}],
"paths":{"/pets/{id}":{"summary":"s","parameters":[{"$ref":"#/components/parameters/P"}],
 "get":{"tags":["pets"],"operationId":"getPet","parameters":[
   {"name":"id","in":"path","required":true,"schema":{"type":"integer","minimum":1,"exclusiveMinimum":0}},
   {"name":"q","in":"query","style":"form","explode":true,"content":{"application/json":{"schema":{"$ref":"#/components/schemas/Pet"}}}},
   {"name":"X-H","in":"header","schema":{"type":"string","enum":["a",null,3]}}],
  "responses":{"200":{"description":"ok","headers":{"X-Rate":{"schema":{"type":"integer"}},"X-Ref":{"$ref":"#/components/headers/H"}},
      "content":{"application/json":{"schema":{"$ref":"#/components/schemas/Pet"},"example":{"name":"rex","x":[1,{"y":null}]}}},
      "links":{"next":{"operationId":"getPet","parameters":{"id":"$response.body"}}}},
   "4XX":{"$ref":"#/components/responses/E"},"default":{"description":"other"},"x-r":1},
  "callbacks":{"cb":{"{$request.body#/url}":{"post":{"responses":{"204":{"description":"none"}}}},"x-cb":true}},
  "deprecated":true,"security":[{}],"x-op":{"a":1}},
 "post":{"requestBody":{"content":{"multipart/form-data":{"schema":{"type":"object","properties":{"f":{"type":"string","format":"binary"}}},
     "encoding":{"f":{"contentType":"image/png","style":"form"}}}},"required":true},"responses":{"201":{"description":"made"}}}},
 "x-paths":"y"},
"webhooks":{"evt":{"post":{"responses":{"200":{"description":"ok"}}}}},
"components":{"schemas":{"Pet":{"type":["object","null"],"properties":{"name":{"type":"string"}}}},
 "responses":{"E":{"description":"error"}},
 "parameters":{"P":{"name":"c","in":"cookie","schema":{"type":"string"},"style":"form"}},
 "requestBodies":{"B":{"content":{"text/plain":{}}}},
 "headers":{"H":{"description":"h","schema":{"type":"string"}}},
 "securitySchemes":{"key":{"type":"apiKey","name":"k","in":"header","description":"d"},"basic":{"type":"http","scheme":"basic"},"jwt":{"type":"http","scheme":"Bearer","bearerFormat":"JWT"},
   "o":{"type":"oauth2","flows":{"implicit":{"authorizationUrl":"a","scopes":{"r":"read"}},"authorizationCode":{"authorizationUrl":"a","tokenUrl":"t","scopes":{}}}},
   "oid":{"type":"openIdConnect","openIdConnectUrl":"u"},"tls":{"type":"mutualTLS"},"ref":{"$ref":"#/components/securitySchemes/key","summary":"s"}},
 "links":{"L":{"operationRef":"r"}}},
"x-spec":{"deep":[{"a":1.25}]}}
