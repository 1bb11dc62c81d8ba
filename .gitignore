*.aux
*.glob
*.vo
*.vok
*.vos
.lia.cache
.nia.cache
.nra.cache
